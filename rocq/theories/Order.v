(** Numbers that stand for real numbers: order and zero are those of the value [val].  Instances: R and Q here, finite IEEE doubles
    in Binary64.v.  Nothing is asked of the arithmetic: the search only compares numbers (and multiplies a count with a height). *)
From Coq Require Import ZArith QArith Qreals Reals RMicromega Bool Lra.
From Verif Require Import Base Num.

Class Ordered (F : Type) {N : Num F} : Type := {
  val : F -> R;
  val_0 : val (nofZ 0) = 0%R;
  val_99999 : val (nofZ 99999) = 99999%R;
  val_is0 : forall x, nis0 x = true <-> val x = 0%R;
  val_le : forall x y, nle x y = true <-> (val x <= val y)%R;
  val_lt : forall x y, nlt x y = true <-> (val x < val y)%R
}.
#[export] Instance OrderedR : Ordered R.
Proof.
  refine {| val := fun x => x |}; cbn; try reflexivity; intros.
  - destruct (Req_EM_T x 0); split; easy.
  - destruct (Rle_dec x y); split; easy.
  - destruct (Rlt_dec x y); split; easy.
Defined.
#[export] Instance OrderedQ : Ordered Q.
Proof.
  refine {| val := Q2R |}; cbn [nofZ nmul nis0 nle nlt NumQ]; intros.
  - apply RMicromega.Q2R_0.
  - unfold Q2R, inject_Z. cbn. unfold Rdiv. rewrite RMicromega.Rinv_1. reflexivity.
  - rewrite Qeq_bool_iff. split; intros H; [apply Qeq_eqR in H; rewrite H; apply RMicromega.Q2R_0|apply eqR_Qeq; rewrite H; symmetry; apply RMicromega.Q2R_0].
  - rewrite Qle_bool_iff. split; intros H; [now apply Qle_Rle|now apply Rle_Qle].
  - rewrite negb_true_iff, <- not_true_iff_false, Qle_bool_iff. split; intros H.
    + apply Qlt_Rlt. now apply Qnot_le_lt.
    + apply Rlt_Qlt in H. intros L. apply (Qlt_not_le _ _ H L).
Defined.

Section Facts.
Context {F : Type} {N : Num F} {OF : Ordered F}.
Open Scope R_scope.
Lemma val_le_false (x y : F) : nle x y = false <-> val y < val x.
Proof. rewrite <- not_true_iff_false, val_le. lra. Qed.
Lemma val_eq (x y : F) : neqb x y = true <-> val x = val y.
Proof. unfold neqb. rewrite andb_true_iff, !val_le. lra. Qed.
Lemma val_le0 (x : F) : nle x (nofZ 0) = true <-> val x <= 0.
Proof. rewrite val_le, val_0. tauto. Qed.
Lemma val_0le (x : F) : nle (nofZ 0) x = true <-> 0 <= val x.
Proof. rewrite val_le, val_0. tauto. Qed.
Lemma val_le0_false (x : F) : nle x (nofZ 0) = false <-> 0 < val x.
Proof. rewrite val_le_false, val_0. tauto. Qed.
Lemma val_0le_false (x : F) : nle (nofZ 0) x = false <-> val x < 0.
Proof. rewrite val_le_false, val_0. tauto. Qed.
Lemma val_lt0 (x : F) : nlt x (nofZ 0) = true <-> val x < 0.
Proof. rewrite val_lt, val_0. tauto. Qed.
Lemma val_0lt (x : F) : nlt (nofZ 0) x = true <-> 0 < val x.
Proof. rewrite val_lt, val_0. tauto. Qed.
Lemma val_lt_false (x y : F) : nlt x y = false <-> val y <= val x.
Proof. rewrite <- not_true_iff_false, val_lt. lra. Qed.
End Facts.
