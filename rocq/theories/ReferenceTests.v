(** A test of the model, not a claim: run in binary64 on the hourly loads of the repository's test, it gives the values that the test expects, bit for bit
    (tests/test_hyts.py:104-170).  The durations of the peaks depend on the equation solver and are taken from the test. *)
From Coq Require Import ZArith List Bool SpecFloat.
From Verif Require Import Base Num Utilities Loads ReferenceLoads.
Import ListNotations.
Open Scope Z_scope.

(** m / 10^k, correctly rounded *)
Definition dec (m : Z) (k : Z) : b64 :=
  match m with
  | 0 => S754_zero false
  | Zpos p => SFdiv 53 1024 (S754_finite false p 0) (S754_finite false (Z.to_pos (10 ^ k)) 0)
  | Zneg p => SFdiv 53 1024 (S754_finite true p 0) (S754_finite false (Z.to_pos (10 ^ k)) 0)
  end.
(** the test asks for numpy.allclose; all values are in fact the same numbers *)
Fixpoint all_equal (expected found : list b64) : bool :=
  match expected, found with [], [] => true | a :: r, b :: s => SFeqb a b && all_equal r s | _, _ => false end.

(** test_hyts.py:102 *)
Definition monthly_cl : list b64 :=
  [dec 0 0; dec (2985279414548951) 12; dec (7348185264939054) 12; dec (242424729437719) 10; dec (38355355848082654) 12; dec (6681912789289287) 11; dec (9258500987606372) 11; dec (10119814499566889) 11; dec (11308748169935631) 11; dec (7280664725332448) 11; dec (3668397513419995) 11; dec (14823049038232912) 12; dec (690523604019025) 11].
(** test_hyts.py:107 *)
Definition monthly_avg_cl : list b64 :=
  [dec 0 0; dec (4012472331382999) 15; dec (10934799501397402) 15; dec (32583969010446104) 15; dec (53271327566781466) 15; dec (8981065577001729) 14; dec (12859029149453295) 14; dec (1360190120909528) 13; dec (15199930335934988) 14; dec (10112034340739511) 14; dec (4930641819112897) 14; dec (2058756810865682) 14; dec (9281231236814852) 15].
(** test_hyts.py:113 *)
Definition monthly_peak_cl : list b64 :=
  [dec 0 0; dec (10165464560000001) 14; dec (168583588315556) 12; dec (24985718963555598) 14; dec (25422101848) 8; dec (3371167684) 7; dec (357063188222222) 12; dec (372182726844444) 12; dec (379231087066667) 12; dec (369814712266667) 12; dec (31993987057777804) 14; dec (18706670408) 8; dec (164354865253333) 12].
(** test_hyts.py:119 *)
Definition monthly_peak_cl_duration : list b64 :=
  [dec 0 0; dec (31631360357235083) 16; dec (4536722758635145) 15; dec (5275275024136286) 15; dec (5884801974995289) 15; dec (6566516432677471) 15; dec (62120005864026115) 16; dec (9064031315164565) 15; dec (7022117117872036) 15; dec (5294648619721669) 15; dec (6014175916357069) 15; dec (4304879113701285) 15; dec (3887673847693884) 15].
(** test_hyts.py:142 *)
Definition monthly_hl : list b64 :=
  [dec 0 0; dec (11501935521152494) 12; dec (6088582132803914) 12; dec (5200039736416) 10; dec (14583650757054926) 14; dec (3874276999022223) 16; dec 0 0; dec 0 0; dec 0 0; dec 0 0; dec (19425909204828) 11; dec (13852150978608274) 13; dec (4749598360895131) 12].
(** test_hyts.py:137 *)
Definition monthly_avg_hl : list b64 :=
  [dec 0 0; dec (15459590754237224) 15; dec (9060390078577253) 15; dec (6989300720989248) 16; dec (2025507049590962) 16; dec (5207361557825568) 19; dec 0 0; dec 0 0; dec 0 0; dec 0 0; dec (26110093017241937) 17; dec (1923909858140038) 15; dec (6383868764643993) 15].
(** test_hyts.py:146 *)
Definition monthly_peak_hl : list b64 :=
  [dec 0 0; dec (17598041008888902) 14; dec (18000339723111102) 14; dec (443234887022222) 13; dec (454052141733333) 13; dec (300107748488889) 15; dec 0 0; dec 0 0; dec 0 0; dec 0 0; dec (444398379333333) 13; dec (11184531427555599) 14; dec (149047468048889) 12].
(** test_hyts.py:152 *)
Definition monthly_peak_hl_duration : list b64 :=
  [dec 0 0; dec (18092592525113897) 16; dec (17442685745218776) 16; dec (10020826443712465) 16; dec (10) 1; dec (10) 1; dec (1) 6; dec (1) 6; dec (1) 6; dec (1) 6; dec (10) 1; dec (12259173461572768) 16; dec (1380120484557252) 15].
(** test_hyts.py:168 *)
Definition expected_load : list b64 :=
  [dec 0 0; dec 0 0; dec (-11528404811628684) 15; dec (-17598041008888902) 14; dec (-11528404811628684) 15; dec (10165464560000001) 14; dec (-11528404811628684) 15; dec (1214867517465956) 15; dec (-18000339723111102) 14; dec (1214867517465956) 15; dec (168583588315556) 12; dec (1214867517465956) 15; dec (3042989070508177) 14; dec (-443234887022222) 13; dec (3042989070508177) 14; dec (24985718963555598) 14; dec (3042989070508177) 14; dec (5154690897747506) 14; dec (-454052141733333) 13; dec (5154690897747506) 14; dec (25422101848) 8; dec (5154690897747506) 14; dec (8772734974048161) 14; dec (-300107748488889) 15; dec (8772734974048161) 14; dec (3371167684) 7; dec (8772734974048161) 14; dec (12660192289907663) 14; dec (357063188222222) 12; dec (12660192289907663) 14; dec (13310638396532786) 14; dec (372182726844444) 12; dec (13310638396532786) 14; dec (14983417997461356) 14; dec (379231087066667) 12; dec (14983417997461356) 14; dec (991298137893778) 13; dec (369814712266667) 12; dec (991298137893778) 13; dec (46961529088849524) 15; dec (31993987057777804) 14; dec (46961529088849524) 15; dec (-444398379333333) 13; dec (46961529088849524) 15; dec (17872915222508293) 15; dec (18706670408) 8; dec (17872915222508293) 15; dec (-11184531427555599) 14; dec (17872915222508293) 15; dec (23315391132531786) 16; dec (164354865253333) 12; dec (23315391132531786) 16; dec (-149047468048889) 12; dec (23315391132531786) 16; dec (-11528404811628684) 15; dec (-17598041008888902) 14; dec (-11528404811628684) 15; dec (10165464560000001) 14; dec (-11528404811628684) 15; dec (1214867517465956) 15; dec (-18000339723111102) 14; dec (1214867517465956) 15; dec (168583588315556) 12; dec (1214867517465956) 15; dec (3042989070508177) 14; dec (-443234887022222) 13; dec (3042989070508177) 14; dec (24985718963555598) 14; dec (3042989070508177) 14; dec (5154690897747506) 14; dec (-454052141733333) 13; dec (5154690897747506) 14; dec (25422101848) 8; dec (5154690897747506) 14; dec (8772734974048161) 14; dec (-300107748488889) 15; dec (8772734974048161) 14; dec (3371167684) 7; dec (8772734974048161) 14; dec (12660192289907663) 14; dec (357063188222222) 12; dec (12660192289907663) 14; dec (13310638396532786) 14; dec (372182726844444) 12; dec (13310638396532786) 14; dec (14983417997461356) 14; dec (379231087066667) 12; dec (14983417997461356) 14; dec (991298137893778) 13; dec (369814712266667) 12; dec (991298137893778) 13; dec (46961529088849524) 15; dec (31993987057777804) 14; dec (46961529088849524) 15; dec (-444398379333333) 13; dec (46961529088849524) 15; dec (17872915222508293) 15; dec (18706670408) 8; dec (17872915222508293) 15; dec (-11184531427555599) 14].
(** test_hyts.py:169 *)
Definition expected_hour : list b64 :=
  [dec 0 0; dec 0 0; dec (20409537037374432) 14; dec (2059046296262557) 13; dec (7314184319821383) 13; dec (7345815680178617) 13; dec (7440) 1; dec (1044127865712739) 12; dec (1045872134287261) 12; dec (14027316386206824) 13; dec (14072683613793174) 13; dec (14160) 1; dec (19564989586778145) 13; dec (19575010413221858) 13; dec (2122362362487932) 12; dec (2127637637512068) 12; dec (21600) 1; dec (22925) 1; dec (22935) 1; dec (25540575990125026) 13; dec (2559942400987498) 12; dec (28800) 1; dec (31085) 1; dec (31095) 1; dec (35857167417836613) 13; dec (35922832582163387) 13; dec (36240) 1; dec (4257893999706798) 12; dec (4264106000293201) 12; dec (43440) 1; dec (4472467984342417) 12; dec (4481532015657582) 12; dec (50880) 1; dec (5241488941441064) 12; dec (52485110585589355) 13; dec (58320) 1; dec (5986352675690139) 12; dec (5991647324309861) 12; dec (65520) 1; dec (6777992912041822) 12; dec (6784007087958179) 12; dec (71645) 1; dec (71655) 1; dec (72960) 1; dec (733084756044315) 11; dec (7335152439556851) 12; dec (78123870413269215) 13; dec (78136129586730785) 13; dec (80160) 1; dec (8291056163076153) 12; dec (8294943836923847) 12; dec (843630993975772) 11; dec (8437690060242277) 12; dec (87600) 1; dec (8964095370373745) 12; dec (8965904629626257) 12; dec (9491418431982138) 12; dec (9494581568017862) 12; dec (95040) 1; dec (9804127865712739) 12; dec (9805872134287261) 12; dec (10162731638620682) 12; dec (10167268361379318) 12; dec (101760) 1; dec (10716498958677814) 12; dec (10717501041322184) 12; dec (10882362362487931) 12; dec (10887637637512067) 12; dec (109200) 1; dec (110525) 1; dec (110535) 1; dec (11314057599012502) 12; dec (11319942400987497) 12; dec (116400) 1; dec (118685) 1; dec (118695) 1; dec (1234571674178366) 11; dec (1235228325821634) 11; dec (123840) 1; dec (130178939997068) 10; dec (13024106000293203) 12; dec (131040) 1; dec (13232467984342418) 12; dec (13241532015657584) 12; dec (138480) 1; dec (14001488941441065) 12; dec (14008511058558937) 12; dec (145920) 1; dec (1474635267569014) 11; dec (1475164732430986) 11; dec (153120) 1; dec (15537992912041822) 12; dec (15544007087958178) 12; dec (159245) 1; dec (159255) 1; dec (160560) 1; dec (1609084756044315) 11; dec (1609515243955685) 11; dec (1657238704132692) 11; dec (1657361295867308) 11].
(** test_hyts.py:170 *)
Definition expected_sfload : list b64 :=
  [dec 0 0; dec 0 0; dec (-11528404811628684) 15; dec (-16445200527726033) 14; dec (16445200527726033) 14; dec (1131830504116287) 13; dec (-1131830504116287) 13; dec (1274327232909464) 14; dec (-18121826474857698) 14; dec (18121826474857698) 14; dec (16736872079809004) 14; dec (-16736872079809004) 14; dec (29215023187615817) 15; dec (-7475337940730397) 14; dec (7475337940730397) 14; dec (21942729893047422) 14; dec (-21942729893047422) 14; dec (2111701827239329) 14; dec (-9695212315080836) 14; dec (9695212315080836) 14; dec (20267410950252494) 14; dec (-20267410950252494) 14; dec (3618044076300655) 14; dec (-880274574889705) 13; dec (880274574889705) 13; dec (2493894186595184) 13; dec (-2493894186595184) 13; dec (3887457315859501) 14; dec (23046126532314537) 14; dec (-23046126532314537) 14; dec (6504461066251238) 15; dec (23907634287911614) 14; dec (-23907634287911614) 14; dec (16727796009285697) 15; dec (22939690709205343) 14; dec (-22939690709205343) 14; dec (-50704366185235756) 15; dec (2706848984772892) 13; dec (-2706848984772892) 13; dec (-5216828470052828) 14; dec (2729783414889285) 13; dec (-2729783414889285) 13; dec (-9140136702218282) 14; dec (9140136702218282) 14; dec (-2908861386634123) 14; dec (1691937888574917) 13; dec (-1691937888574917) 13; dec (-1297182294980643) 13; dec (1297182294980643) 13; dec (-15541376109255115) 15; dec (16202332614007983) 14; dec (-16202332614007983) 14; dec (-15137900716214216) 14; dec (15137900716214216) 14; dec (-13859943924881863) 15; dec (-16445200527726033) 14; dec (16445200527726033) 14; dec (1131830504116287) 13; dec (-1131830504116287) 13; dec (1274327232909464) 14; dec (-18121826474857698) 14; dec (18121826474857698) 14; dec (16736872079809004) 14; dec (-16736872079809004) 14; dec (29215023187615817) 15; dec (-7475337940730397) 14; dec (7475337940730397) 14; dec (21942729893047422) 14; dec (-21942729893047422) 14; dec (2111701827239329) 14; dec (-9695212315080836) 14; dec (9695212315080836) 14; dec (20267410950252494) 14; dec (-20267410950252494) 14; dec (3618044076300655) 14; dec (-880274574889705) 13; dec (880274574889705) 13; dec (2493894186595184) 13; dec (-2493894186595184) 13; dec (3887457315859501) 14; dec (23046126532314537) 14; dec (-23046126532314537) 14; dec (6504461066251238) 15; dec (23907634287911614) 14; dec (-23907634287911614) 14; dec (16727796009285697) 15; dec (22939690709205343) 14; dec (-22939690709205343) 14; dec (-50704366185235756) 15; dec (2706848984772892) 13; dec (-2706848984772892) 13; dec (-5216828470052828) 14; dec (2729783414889285) 13; dec (-2729783414889285) 13; dec (-9140136702218282) 14; dec (9140136702218282) 14; dec (-2908861386634123) 14; dec (1691937888574917) 13; dec (-1691937888574917) 13; dec (-1297182294980643) 13].
(** test_hyts.py:118 *)
Definition monthly_peak_cl_day : list Z := [0; 31; 28; 30; 17; 30; 27; 6; 7; 7; 10; 2; 12].
(** test_hyts.py:151 *)
Definition monthly_peak_hl_day : list Z := [0; 9; 13; 23; 6; 10; 0; 0; 0; 0; 26; 22; 18].

Definition office_b64 : list b64 := map (fun z => dec z 13) office.
Definition given (a : list b64 * list b64 * list b64 * list Z) (duration : list b64) : loads b64 :=
  let '(total, peak, average, day) := a in
  {| ld_hourly := []; ld_total := total; ld_peak := peak; ld_average := average; ld_peak_day := day; ld_two_day := []; ld_temps_pk := []; ld_temps_nm := []; ld_duration := duration |}.
Definition analysis (l : list b64) (total average peak : list b64) (day : list Z) : bool :=
  match split_load_by_month 2019 l with
  | Ok (t, p, a, d) => all_equal total t && all_equal peak p && all_equal average a && forallb (fun xy => fst xy =? snd xy) (combine day d) && (length day =? length d)%nat
  | Err _ => false
  end.

(** test_hyts.py:131-143, 158-162: what the months are found to be *)
Example reference_months :
  match split_heat_and_cool office_b64 unit_W with
  | Ok (rej, ext) => analysis rej monthly_cl monthly_avg_cl monthly_peak_cl monthly_peak_cl_day && analysis ext monthly_hl monthly_avg_hl monthly_peak_hl monthly_peak_hl_day
  | Err _ => false
  end = true.
Proof. vm_compute. reflexivity. Qed.
(** test_hyts.py:172-174: the loads of two years, of which the test checks the first hundred entries *)
Example reference_hybrid_loads :
  match split_heat_and_cool office_b64 unit_W with
  | Ok (rej, ext) =>
      match split_load_by_month 2019 rej, split_load_by_month 2019 ext with
      | Ok c, Ok h =>
          match process_monthly_loads (given c monthly_peak_cl_duration) (given h monthly_peak_hl_duration) 1 24 with
          | Ok (l, hr, sf) => all_equal expected_load (firstn 100 l) && all_equal expected_hour (firstn 100 hr) && all_equal expected_sfload (firstn 100 sf)
          | Err _ => false
          end
      | _, _ => false
      end
  | Err _ => false
  end = true.
Proof. vm_compute. reflexivity. Qed.
