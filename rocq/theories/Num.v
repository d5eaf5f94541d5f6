(** Numeric operations used by the Python code, as an operations-only class with three instances:
    exact reals, exact rationals (executable) and IEEE binary64 (executable, stdlib SpecFloat).
    Models Python's float arithmetic, numpy.floor / numpy.ceil followed by int(...). *)
From Coq Require Import ZArith QArith Qround Qreduction Reals SpecFloat List Bool.
From Verif Require Import Base.
Open Scope Z_scope.

Class Num (F : Type) : Type := {
  nofZ : Z -> F;               (* float(i) *)
  nadd : F -> F -> F;
  nsub : F -> F -> F;
  nmul : F -> F -> F;
  ndivr : F -> F -> F;         (* division, when the divisor is not zero *)
  nis0 : F -> bool;            (* x == 0 *)
  nle : F -> F -> bool;        (* x <= y *)
  nlt : F -> F -> bool;        (* x < y *)
  nabs : F -> F;
  nfloor : F -> res Z;         (* int(np.floor(x)) *)
  nceil : F -> res Z           (* int(np.ceil(x)) *)
}.

(** [x / y] : Python raises ZeroDivisionError when the divisor is zero *)
Definition pydiv {F} {N : Num F} (x y : F) : res F :=
  if nis0 y then Err ZeroDivisionError else Ok (ndivr x y).

(** Python's [max] / [min] of two numbers: the first argument wins ties *)
Definition nmax {F} {N : Num F} (x y : F) : F := if nlt x y then y else x.
Definition nmin {F} {N : Num F} (x y : F) : F := if nlt y x then y else x.

(** Python's [sum(l)] (left to right, starting from 0) *)
Definition nsum {F} {N : Num F} (l : list F) : F := fold_left nadd l (nofZ 0).

(** Python's [max(l)]; ValueError on an empty list *)
Definition nmaxl {F} {N : Num F} (l : list F) : res F :=
  match l with nil => Err ValueError | cons a r => Ok (fold_left nmax r a) end.

(** [x == y] *)
Definition neqb {F} {N : Num F} (x y : F) : bool := nle x y && nle y x.

(** ** exact reals *)
Definition Rfloor (x : R) : Z := (up x - 1)%Z.
Definition Rceil (x : R) : Z := (- Rfloor (- x))%Z.

#[export] Instance NumR : Num R := {
  nofZ := IZR; nadd := Rplus; nsub := Rminus; nmul := Rmult; ndivr := Rdiv;
  nis0 := fun x => if Req_EM_T x 0 then true else false;
  nle := fun x y => if Rle_dec x y then true else false;
  nlt := fun x y => if Rlt_dec x y then true else false;
  nabs := Rabs;
  nfloor := fun x => Ok (Rfloor x);
  nceil := fun x => Ok (Rceil x)
}.

(** ** exact rationals *)
#[export] Instance NumQ : Num Q := {
  nofZ := inject_Z;
  nadd := fun x y => Qred (x + y);
  nsub := fun x y => Qred (x - y);
  nmul := fun x y => Qred (x * y);
  ndivr := fun x y => Qred (x / y);
  nis0 := fun x => Qeq_bool x 0;
  nle := Qle_bool;
  nlt := fun x y => negb (Qle_bool y x);
  nabs := fun x => Qred (if Qle_bool 0 x then x else - x);
  nfloor := fun x => Ok (Qfloor x);
  nceil := fun x => Ok (Qceiling x)
}.

(** ** IEEE binary64 *)
Definition b64 := spec_float.
Definition b64_ofZ (z : Z) : b64 := binary_normalize 53 1024 z 0 false.
Definition b64_is0 (x : b64) : bool := match x with S754_zero _ => true | _ => false end.
(** floor / ceil to an integer; int(nan) is ValueError, int(inf) is OverflowError *)
Definition b64_round (fl : Z -> Z -> Z) (x : b64) : res Z :=
  match x with
  | S754_zero _ => Ok 0
  | S754_infinity _ => Err OverflowError
  | S754_nan => Err ValueError
  | S754_finite s m e =>
      let n := if s then Z.neg m else Z.pos m in
      Ok (if 0 <=? e then Z.shiftl n e else fl n (2 ^ (- e)))
  end.

#[export] Instance NumB64 : Num b64 := {
  nofZ := b64_ofZ;
  nadd := SFadd 53 1024; nsub := SFsub 53 1024; nmul := SFmul 53 1024; ndivr := SFdiv 53 1024;
  nis0 := b64_is0;
  nle := SFleb; nlt := SFltb;
  nabs := SFabs;
  nfloor := b64_round Z.div;
  nceil := b64_round (fun a b => - ((- a) / b))
}.

(** decimal literal n/d, correctly rounded when n and d are exactly representable *)
Definition b64_lit (n d : Z) : b64 := SFdiv 53 1024 (b64_ofZ n) (b64_ofZ d).
