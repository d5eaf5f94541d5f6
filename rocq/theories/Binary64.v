(** Finite IEEE doubles as the numbers of the search, floor and ceiling of doubles, and the decisions of Search.v as IEEE operations *)
From Coq Require Import ZArith Reals SpecFloat Bool Lia Lra Eqdep_dec.
From Verif Require Import Base Num Order BaseLemmas Float64 Utilities Search.
Open Scope Z_scope.

(** ** floor and ceiling *)
Lemma floor64 x : finite64 x = true -> nfloor x = Ok (Rfloor (bval x)).
Proof.
  destruct x as [s|s| |s m e]; try discriminate; intros _; cbn [nfloor NumB64 b64_round].
  - cbn [bval]. now rewrite (Rfloor_unique 0 0) by lra.
  - f_equal. symmetry. set (n := if s then Zneg m else Zpos m).
    assert (Ev : bval (S754_finite s m e) = (IZR n * p2 e)%R).
    { rewrite bval_sgn. unfold n, sgn. destruct s; [change (Zneg m) with (- Zpos m)%Z; rewrite opp_IZR|]; ring. }
    rewrite Ev. destruct (Z.leb_spec 0 e) as [He|He].
    + rewrite Z.shiftl_mul_pow2, (p2_Z e), <- mult_IZR by lia. apply Rfloor_unique. lra.
    + assert (P : 0 < 2 ^ (- e)) by (apply Z.pow_pos_nonneg; lia). pose proof (Z.div_mod n (2 ^ (- e)) ltac:(lia)) as D.
      pose proof (Z.mod_pos_bound n (2 ^ (- e)) P) as B. set (q := n / 2 ^ (- e)) in *. set (r := n mod 2 ^ (- e)) in *.
      assert (E1 : (IZR (2 ^ (- e)) * p2 e = 1)%R) by (rewrite <- p2_Z, <- p2_add, Z.add_opp_diag_l by lia; reflexivity).
      pose proof (p2_pos e). rewrite D, plus_IZR, mult_IZR.
      replace ((IZR (2 ^ (- e)) * IZR q + IZR r) * p2 e)%R with (IZR q * (IZR (2 ^ (- e)) * p2 e) + IZR r * p2 e)%R by ring.
      rewrite E1. destruct B as [B1 B2]. apply IZR_le in B1. apply IZR_lt in B2. apply Rfloor_unique. split; nra.
Qed.
Lemma ceil64 x : finite64 x = true -> nceil x = Ok (Rceil (bval x)).
Proof.
  intros F. assert (F' : finite64 (SFopp x) = true) by (destruct x; auto). pose proof (floor64 _ F') as H.
  assert (bval (SFopp x) = - bval x)%R as E by (destruct x as [| | |[]]; cbn; lra). rewrite E in H.
  destruct x as [s|s| |s m e]; try discriminate; cbn [nceil NumB64 b64_round].
  - cbn [bval]. now rewrite (Rceil_unique 0 0) by lra.
  - cbn [nfloor NumB64 b64_round SFopp] in H. injection H as H. unfold Rceil. rewrite bval_sgn. unfold sgn. rewrite <- H. f_equal.
    destruct (0 <=? e) eqn:Ee.
    + rewrite !Z.shiftl_mul_pow2 by lia. destruct s; cbn [negb]; lia.
    + destruct s; cbn [negb]; reflexivity.
Qed.

(** ** finite doubles as a type *)
Definition F64 : Type := { x : b64 | finite64 x = true }.
Definition F64_0 : F64 := exist _ (S754_zero false) eq_refl.
(** a double that is known to be finite; anything else (overflow to an infinity, nan) is replaced by zero.  The search makes such a
    number only when a count times a height overflows. *)
Definition clip (x : b64) : F64 :=
  match bool_dec (finite64 x) true with left H => exist _ x H | right _ => F64_0 end.
Lemma clip_val x : finite64 x = true -> proj1_sig (clip x) = x.
Proof. intros H. unfold clip. destruct (bool_dec (finite64 x) true); [reflexivity|contradiction]. Qed.

#[export] Instance NumF64 : Num F64 := {
  nofZ z := clip (b64_ofZ z);
  nadd x y := clip (SFadd 53 1024 (proj1_sig x) (proj1_sig y));
  nsub x y := clip (SFsub 53 1024 (proj1_sig x) (proj1_sig y));
  nmul x y := clip (SFmul 53 1024 (proj1_sig x) (proj1_sig y));
  ndivr x y := clip (SFdiv 53 1024 (proj1_sig x) (proj1_sig y));
  nis0 x := b64_is0 (proj1_sig x);
  nle x y := SFleb (proj1_sig x) (proj1_sig y);
  nlt x y := SFltb (proj1_sig x) (proj1_sig y);
  nabs x := clip (SFabs (proj1_sig x));
  nfloor x := b64_round Z.div (proj1_sig x);
  nceil x := b64_round (fun a b => - ((- a) / b)) (proj1_sig x)
}.
#[export] Instance OrderedF64 : Ordered F64.
Proof.
  refine {| val := fun x : F64 => bval (proj1_sig x) |}.
  - cbn [nofZ NumF64]. destruct (b64_ofZ_exact 0 ltac:(lia)) as [F E]. now rewrite clip_val.
  - cbn [nofZ NumF64]. destruct (b64_ofZ_exact 99999 ltac:(lia)) as [F E]. now rewrite clip_val.
  - intros [x Hx]. now apply b64_is0_iff.
  - intros [x Hx] [y Hy]. now apply SFleb_iff.
  - intros [x Hx] [y Hy]. now apply SFltb_iff.
Defined.

(** ** the three kinds of doubles of Utilities.v *)
Definition classify (x : b64) : xval F64 :=
  match bool_dec (finite64 x) true with
  | left H => Fin (exist _ x H)
  | right _ => match x with S754_infinity true => NegInf | _ => NonFin end
  end.
(** utilities.py:96-103 with IEEE operations: int(abs(x) / x); Python's float division raises when the divisor is zero *)
Definition sign64 (x : b64) : res Z :=
  let! q := pydiv (nabs x) x in b64_round Z.quot q.

Lemma classify_fin x (H : finite64 x = true) : classify x = Fin (exist _ x H).
Proof.
  unfold classify. destruct (bool_dec (finite64 x) true) as [H'|]; [|contradiction].
  do 2 f_equal. apply UIP_dec, bool_dec.
Qed.
Lemma zero64 : proj1_sig (nofZ 0 : F64) = S754_zero false.
Proof. reflexivity. Qed.

Lemma div_self s m e : SFdiv 53 1024 (S754_finite false m e) (S754_finite s m e) = S754_finite s 4503599627370496 (-52).
Proof.
  cbn [SFdiv]. unfold SFdiv_core_binary. cbv zeta. rewrite !Z.sub_diag.
  change (Z.min (fexp 53 1024 0) 0) with (-53). change (0 - -53) with 53. cbv iota. rewrite Z.shiftl_mul_pow2 by lia.
  pose proof (Z_div_mod (Zpos m * 2 ^ 53) (Zpos m) ltac:(lia)) as D. destruct (Z.div_eucl (Zpos m * 2 ^ 53) (Zpos m)) as [q r].
  destruct D as [E R]. assert (U : forall K, Zpos m * K = Zpos m * q + r -> q = K /\ r = 0).
  { intros K EK. assert (q = K) as ->; [|lia]. destruct (Z.lt_trichotomy q K) as [L|[L|L]]; [|exact L|]; nia. }
  destruct (U _ E) as [-> ->].
  assert (L : new_location (Zpos m) 0 = loc_Exact) by (unfold new_location, new_location_even, new_location_odd; destruct (Z.even (Zpos m)); reflexivity).
  rewrite L. destruct s; vm_compute; reflexivity.
Qed.
