(** Model of ghedt/peak_load_analysis_tool/ground_loads.py.
    Not modelled: __repr__, create_dataframe_of_peak_analysis, the two visualize_ functions,
    number_to_month and monthindex (printing and plotting only), and the COP attributes (unused). *)
From Coq Require Import ZArith List Bool.
From Verif Require Import Base Num.
Import ListNotations.
Open Scope Z_scope.

(** ** calendar *)

(** calendar.isleap and calendar.monthrange(year, month)[1] of the Python library, for months 1 to 12 *)
Definition isleap (year : Z) : bool := (year mod 4 =? 0) && (negb (year mod 100 =? 0) || (year mod 400 =? 0)).
Definition month_length (year month : Z) : Z :=
  (if month =? 2 then 28 else if (month =? 4) || (month =? 6) || (month =? 9) || (month =? 11) then 30 else 31)
  + (if (month =? 2) && isleap year then 1 else 0).

(** ground_loads.py:66-67, 132-133, 622-623, without the leading 0 *)
Definition months_of (year : Z) : list Z := map (month_length year) (zrange 1 13).
Definition zsum (l : list Z) : Z := fold_left Z.add l 0.

(** ground_loads.py:828-835 *)
Definition ndays : list Z := [31; 31; 28; 31; 30; 31; 30; 31; 31; 30; 31; 30; 31].
Definition monthdays (month : Z) : res Z := py_nth ndays (if 12 <? month then month mod 12 else month).

(** ground_loads.py:838-844 *)
Definition firstmonthhour (month : Z) : res Z :=
  if 1 <? month
  then foldM (fun fmh i => let! d := monthdays (i mod 12) in Ok (fmh + 24 * d)) (zrange 1 month) 1
  else Ok 1.

(** ground_loads.py:847-853 *)
Definition lastmonthhour (month : Z) : res Z :=
  let! lmh := foldM (fun lmh i => let! d := monthdays i in Ok (lmh + d * 24)) (zrange 1 (month + 1)) 0 in
  Ok (if month =? 1 then 31 * 24 else lmh).

Section Loads.
Context {F : Type} {N : Num F}.

(** the decimal literal n/d of the source *)
Definition nlit (n d : Z) : F := ndivr (nofZ n) (nofZ d).

(** list.index *)
Definition py_index (x : F) (l : list F) : res Z :=
  match find_index (neqb x) l with Some n => Ok (Z.of_nat n) | None => Err ValueError end.

(** ** synthetic profiles *)

(** ground_loads.py:16-45.  math.floor(noon - duration/2) = noon + floor(-duration/2). *)
Definition synthetic_load_function (hourly : list F) (avg_hourly_load peak_load : F)
    (peak_load_duration peak_day hours_in_previous_months hours_in_month : Z) : list F :=
  let hourly := py_slice_set hourly hours_in_previous_months (hours_in_previous_months + hours_in_month)
                             (py_repeat avg_hourly_load hours_in_month) in
  let peak_day_noon := peak_day * 24 + hours_in_previous_months + 12 in
  let start := (2 * peak_day_noon - peak_load_duration) / 2 in
  py_slice_set hourly start (start + peak_load_duration) (py_repeat peak_load peak_load_duration).

Inductive units : Set := unit_W | unit_kW | unit_other.
(** ground_loads.py:58-63, 447-452 *)
Definition unit_scale (u : units) : res F :=
  match u with unit_W => Ok (nofZ 1000) | unit_kW => Ok (nofZ 1) | unit_other => Err ValueError end.

(** loop body ground_loads.py:86-117; state (rejection, extraction, hours in previous months).
    len(days_in_month) = 13; the peak days start at 7 and 19 and count up and down with i. *)
Definition doubling_body (year : Z) (scale : F) (s : list F * list F * Z) (i : Z) : list F * list F * Z :=
  let '(rej, ext, prev) := s in
  let him := 24 * month_length year i in
  let avg_ext := nmul (nofZ i) scale in
  let avg_rej := nofZ (13 - i) in
  let peak_ext := nmul (nmul (nofZ 2) (nofZ i)) scale in
  let peak_rej := nmul (nmul (nofZ 2) (nofZ (13 - i))) scale in
  (synthetic_load_function rej avg_rej peak_rej (13 - i) (19 - (i - 1)) prev him,
   synthetic_load_function ext avg_ext peak_ext i (7 + (i - 1)) prev him,
   prev + him).
(** ground_loads.py:48-119 *)
Definition create_synthetic_doubling_load_profile (u : units) (year : Z) : res (list F * list F) :=
  let! scale := unit_scale u in
  let zeros := py_repeat (nofZ 0) (zsum (months_of year) * 24) in
  let '(rej, ext, _) := fold_left (doubling_body year scale) (zrange 1 13) (zeros, zeros, 0) in
  Ok (rej, ext).

(** ground_loads.py:430-462; result (rejection, extraction) *)
Definition split_heat_and_cool (hourly : list F) (u : units) : res (list F * list F) :=
  let! scale := unit_scale u in
  let! ext := mapM (fun l => if nle (nofZ 0) l then pydiv l scale else Ok (nofZ 0)) hourly in
  let! rej := mapM (fun l => if nle (nofZ 0) l then Ok (nofZ 0) else pydiv l (nsub (nofZ 0) scale)) hourly in
  Ok (rej, ext).

(** ** monthly analysis: class Loads *)

(** Attributes of Loads; entry 0 of the monthly lists is unused.  The lists are created with thirteen
    zeros and entries 1..12 assigned in increasing order, which is modelled by appending. *)
Record loads : Type := {
  ld_hourly : list F;
  ld_total : list F;
  ld_peak : list F;
  ld_average : list F;
  ld_peak_day : list Z;
  ld_two_day : list (list F);
  ld_temps_pk : list (list F);
  ld_temps_nm : list (list F);
  ld_duration : list F
}.

(** loop body ground_loads.py:173-195; state (hours in previous months, totals, peaks, averages, peak days).
    math.ceil of the quotient of two small integers is the exact ceiling. *)
Definition split_body (hourly : list F) (s : Z * (list F * list F * list F * list Z)) (days_in_month : Z)
    : res (Z * (list F * list F * list F * list Z)) :=
  let '(prev, (totals, peaks, averages, days)) := s in
  let hours_in_month := 24 * days_in_month in
  let month_loads := py_slice hourly prev (prev + hours_in_month) in
  let! _ := assert_ (zlen month_loads =? hours_in_month) in
  let total := nsum month_loads in
  let! peak := nmaxl month_loads in
  let! average := pydiv total (nofZ (zlen month_loads)) in
  let! idx := py_index peak month_loads in
  let peak_day := - ((- idx) / 24) in
  Ok (prev + hours_in_month, (totals ++ [total], peaks ++ [peak], averages ++ [average], days ++ [peak_day])).
(** ground_loads.py:167-197 *)
Definition split_load_by_month (year : Z) (hourly : list F) : res (list F * list F * list F * list Z) :=
  let zero := nofZ 0 in
  let! s := foldM (split_body hourly) (months_of year) (0, ([zero], [zero], [zero], [0])) in
  Ok (snd s).

(** loop body ground_loads.py:219-243; state (hours in previous months, two-day loads); the element is
    (i, days_in_month).  int(x / 24) truncates towards zero. *)
Definition two_day_body (year : Z) (peak_day : list Z) (hourly_loads : list F)
    (s : Z * list (list F)) (i : Z) : res (Z * list (list F)) :=
  let (prev, acc) := s in
  let hours_in_month := 24 * month_length year i in
  let! monthly_peak_day := py_nth peak_day i in
  let start := prev + (monthly_peak_day - 1) * 24 in
  let two_day := py_slice hourly_loads start (start + 2 * 24) in
  let! _ := assert_ (zlen two_day =? 2 * 24) in
  let day_start := Z.quot (start - 24) 24 in
  let! _ := assert_ (day_start - zsum (map (month_length year) (zrange 1 i)) =? monthly_peak_day - 1) in
  Ok (prev + hours_in_month, acc ++ [two_day]).
(** ground_loads.py:199-245; entry 0 of the result is [[0]] (line 154) *)
Definition process_two_day_loads (year : Z) (hourly : list F) (peak_day : list Z) : res (list (list F)) :=
  let n := zlen hourly in
  let hourly_loads := py_slice hourly (n - 24) n ++ hourly ++ py_slice hourly 0 24 in
  let! s := foldM (two_day_body year peak_day hourly_loads) (zrange 1 13) (24, [[nofZ 0]]) in
  Ok (snd s).

(** [gt t] stands for g_sts(log(3600 t / ts)), the interpolated short-time g-function after t hours;
    evaluation outside its range raises. *)
Variable gt : F -> res F.
Variables (two_pi_k Rb : F).

(** differences of neighbouring elements, q[1:] - q[:-1] *)
Fixpoint diffs (q : list F) : list F :=
  match q with
  | a :: ((b :: _) as r) => nsub b a :: diffs r
  | _ => []
  end.
(** dot product *)
Definition dot (x y : list F) : F := nsum (map (fun p => nmul (fst p) (snd p)) (combine x y)).

(** ground_loads.py:298-317; the loop body for n *)
Definition hourly_step (hour_time q : list F) (n : Z) : res F :=
  let q_dt := diffs q in
  let! tn := py_nth hour_time n in
  let! g_values := mapM (fun t => gt (nsub tn t)) (py_slice hour_time 0 n) in
  let! scaled := mapM (fun d => pydiv d two_pi_k) (py_slice q_dt 0 n) in
  let delta := dot scaled g_values in
  let! qn := py_nth q n in
  Ok (nadd delta (nmul qn Rb)).
Definition simulate_hourly (hour_time q : list F) : res (list F) :=
  let! r := mapM (hourly_step hour_time q) (zrange 1 (zlen hour_time)) in
  Ok (nofZ 0 :: r).

(** insertion into a list of points sorted by abscissa *)
Fixpoint insert_pt (p : F * F) (l : list (F * F)) : list (F * F) :=
  match l with
  | [] => [p]
  | q :: r => if nle (fst p) (fst q) then p :: l else q :: insert_pt p r
  end.
(** numpy.interp inside the range of sorted points *)
Fixpoint interp_sorted (l : list (F * F)) (v : F) : res F :=
  match l with
  | [] => Err ValueError
  | [p] => if neqb (fst p) v then Ok (snd p) else Err ValueError
  | p :: ((q :: _) as r) =>
      if nle (fst q) v then interp_sorted r v
      else if nle (fst p) v
           then let! slope := pydiv (nsub (snd q) (snd p)) (nsub (fst q) (fst p)) in
                Ok (nadd (nmul slope (nsub v (fst p))) (snd p))
           else Err ValueError
  end.
(** scipy.interpolate.interp1d(x, y)(v), linear, which sorts the points by x (mergesort, stable), raises ValueError
    outside the range and otherwise calls numpy.interp *)
Definition interp1d (x y : list F) (v : F) : res F :=
  interp_sorted (fold_right insert_pt [] (combine x y)) v.

(** ground_loads.py:319-352; result (peak_duration, dT_fluid_pk, dT_fluid_nm).  q_peak and q_nominal are
    returned by the code but not used by its caller. *)
Definition hour_times : list F := map nofZ (zrange 0 49).
Definition peak_profile (peak_load avg_load : F) : list F :=
  nofZ 0 :: py_repeat (nsub peak_load avg_load) 48.
Definition nominal_profile (two_day : list F) (peak_load avg_load : F) : res (list F) :=
  let! q := mapM (fun i => let! l := py_nth two_day i in
                           let! r := pydiv (nsub l avg_load) peak_load in
                           Ok (nmul r l)) (zrange 1 49) in
  Ok (nofZ 0 :: q).
Definition perform_current_month_simulation (two_day : list F) (peak_load avg_load : F)
    : res (F * list F * list F) :=
  let! q_nominal := nominal_profile two_day peak_load avg_load in
  let! pk := simulate_hourly hour_times (peak_profile peak_load avg_load) in
  let! nm := simulate_hourly hour_times q_nominal in
  let! nm_max := nmaxl nm in
  let! duration := (if nlt (nofZ 0) nm_max then interp1d pk hour_times nm_max else Ok (nlit 1 1000000)) in
  Ok (duration, pk, nm).

(** loop body ground_loads.py:250-294; state (temps_pk, temps_nm, durations) *)
Definition current_peak (monthly_peak : F) (two_day : list F) : res F :=
  let! m := nmaxl two_day in
  if nlt (nabs (nsub monthly_peak m)) (nlit 1 10) then Ok monthly_peak else Ok m.
Definition durations_body (two_days : list (list F)) (peaks averages : list F)
    (s : list (list F) * list (list F) * list F) (i : Z) : res (list (list F) * list (list F) * list F) :=
  let '(temps_pk, temps_nm, durations) := s in
  let! td := py_nth two_days i in
  let two_day := nofZ 0 :: td in
  let! mp := py_nth peaks i in
  let! peak := current_peak mp two_day in
  let! avg := py_nth averages i in
  if nis0 peak then Ok (temps_pk, temps_nm, durations ++ [nlit 1 1000000])
  else
    let! r := perform_current_month_simulation two_day peak avg in
    let '(duration, pk, nm) := r in
    Ok (temps_pk ++ [pk], temps_nm ++ [nm], durations ++ [duration]).
(** ground_loads.py:247-296 *)
Definition find_peak_durations (two_days : list (list F)) (peaks averages : list F)
    : res (list (list F) * list (list F) * list F) :=
  foldM (durations_body two_days peaks averages) (zrange 1 13) ([[nofZ 0]], [[nofZ 0]], [nofZ 0]).

(** ground_loads.py:122-165 *)
Definition make_loads (year : Z) (hourly : list F) : res loads :=
  let! _ := assert_ (zlen hourly =? zsum (months_of year) * 24) in
  let! m := split_load_by_month year hourly in
  let '(totals, peaks, averages, days) := m in
  let! td := process_two_day_loads year hourly days in
  let! d := find_peak_durations td peaks averages in
  let '(pk, nm, durations) := d in
  Ok {| ld_hourly := hourly; ld_total := totals; ld_peak := peaks; ld_average := averages; ld_peak_day := days;
        ld_two_day := td; ld_temps_pk := pk; ld_temps_nm := nm; ld_duration := durations |}.

End Loads.
Arguments loads F : clear implicits.

(** ** hybrid load sequence: class HybridLoad *)
Section Hybrid.
Context {F : Type} {N : Num F}.

(** ground_loads.py:354-356 *)
Definition peak_energy (ld : loads F) (m : Z) : res F :=
  let! p := py_nth (ld_peak ld) m in
  let! d := py_nth (ld_duration ld) m in
  Ok (nmul p d).

(** ground_loads.py:358-371 *)
Definition peak_hour_range (ld : loads F) (m total_months : Z) : res (F * F) :=
  let! day := py_nth (ld_peak_day ld) m in
  let! dur := py_nth (ld_duration ld) m in
  let! half := pydiv dur (nofZ 2) in
  let! fmh := firstmonthhour total_months in
  let first := nsub (nofZ (fmh + ((day - 1) * 24 + 12))) half in
  let first := if nlt first (nofZ 0) then nlit 1 1000000 else first in
  Ok (first, nadd first dur).

(** ground_loads.py:551-565; state (load, hour).  [order] pairs each Loads object with its sign. *)
Definition place_loads (include_peak : bool) (mi i : Z) (order : list (loads F * F)) (rate : F)
    (s : list F * list F) : res (list F * list F) :=
  let! s := foldM (fun s (o : loads F * F) =>
                     let (load, hour) := s : list F * list F in
                     let! p := py_nth (ld_peak (fst o)) mi in
                     if nlt (nofZ 0) p && include_peak then
                       let! r := peak_hour_range (fst o) mi i in
                       Ok (load ++ [rate; nmul (snd o) p], hour ++ [fst r; snd r])
                     else Ok (load, hour)) order s in
  let! last := lastmonthhour i in
  Ok (fst s ++ [rate], snd s ++ [nofZ last]).

(** ground_loads.py:570-584: the average rate of the month and the difference of the peak days *)
Definition month_rate (cl hl : loads F) (mi : Z) (include_peak : bool) : res (F * Z) :=
  let! md := monthdays mi in
  let! tc := py_nth (ld_total cl) mi in
  let! th := py_nth (ld_total hl) mi in
  if include_peak then
    let! dc := py_nth (ld_duration cl) mi in
    let! dh := py_nth (ld_duration hl) mi in
    let mduration := nsub (nsub (nofZ (md * 24)) dc) dh in
    let! ec := peak_energy cl mi in
    let! eh := peak_energy hl mi in
    let mload := nadd (nsub (nsub tc th) ec) eh in
    let! mrate := pydiv mload mduration in
    let! pc := py_nth (ld_peak_day cl) mi in
    let! ph := py_nth (ld_peak_day hl) mi in
    Ok (mrate, pc - ph)
  else
    let! mrate := pydiv (nsub tc th) (nofZ (md * 24)) in
    Ok (mrate, 0).

(** loop body ground_loads.py:538-602; state (load, hour) *)
Definition month_body (cl hl : loads F) (startmonth endmonth : Z) (s : list F * list F) (i : Z)
    : res (list F * list F) :=
  let mi := if i mod 12 =? 0 then 12 else i mod 12 in
  let include_peak := (i <? startmonth + 12) || (endmonth - 12 <? i) in
  let! r := month_rate cl hl mi include_peak in
  let (mrate, diff) := r in
  if diff <? 0 then place_loads include_peak mi i [(cl, nofZ 1); (hl, nofZ (-1))] mrate s
  else if 0 <? diff then place_loads include_peak mi i [(hl, nofZ (-1)); (cl, nofZ 1)] mrate s
  else
    let! last := lastmonthhour i in
    Ok (fst s ++ [mrate], snd s ++ [nofZ last]).

(** ground_loads.py:522-612; result (load, hour, sfload).  The arrays start as np.array(0), i.e. with one 0. *)
Definition process_monthly_loads (cl hl : loads F) (startmonth endmonth : Z) : res (list F * list F * list F) :=
  let! fmh := firstmonthhour startmonth in
  let! s := foldM (month_body cl hl startmonth endmonth) (zrange startmonth (endmonth + 1))
                  ([nofZ 0; nofZ 0], [nofZ 0; nofZ (fmh - 1)]) in
  let (load, hour) := s in
  Ok (load, hour, nofZ 0 :: diffs load).

(** int(round(x)), halves to the even neighbour *)
Definition py_round (x : F) : res Z :=
  let! f := nfloor x in
  let d := nsub x (nofZ f) in
  let half := nlit 1 2 in
  Ok (if nlt d half then f else if nlt half d then f + 1 else if Z.even f then f else f + 1).

(** ground_loads.py:614-670; result (rejection, extraction) *)
Definition representation_body (year : Z) (cl hl : loads F) (s : list F * list F * Z) (i : Z)
    : res (list F * list F * Z) :=
  let '(rej, ext, prev) := s in
  let him := 24 * month_length year i in
  let one (ld : loads F) (l : list F) : res (list F) :=
    let! avg := py_nth (ld_average ld) i in
    let! peak := py_nth (ld_peak ld) i in
    let! dur := py_nth (ld_duration ld) i in
    let! n := py_round dur in
    let! day := py_nth (ld_peak_day ld) i in
    Ok (synthetic_load_function l avg peak n day prev him) in
  let! ext := one hl ext in
  let! rej := one cl rej in
  Ok (rej, ext, prev + him).
Definition hourly_load_representation (cl hl : loads F) (year : Z) : res (list F * list F) :=
  let zeros := py_repeat (nofZ 0) (zsum (months_of year) * 24) in
  let! s := foldM (representation_body year cl hl) (zrange 1 13) (zeros, zeros, 0) in
  let '(rej, ext, _) := s in
  Ok (rej, ext).

End Hybrid.
