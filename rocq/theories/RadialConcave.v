(** The short-time response is concave: flows between cells never fall, so the fluid temperature rises less and less *)
From Coq Require Import ZArith List Reals Lia Lra.
From Verif Require Import Base Radial RadialSpec RadialProofs RadialGrid.
Import ListNotations.
Open Scope R_scope.

(** three states in succession: flows that have not fallen do not fall *)
Lemma flows_grow q dt cells T X Y : 0 < dt -> physical cells -> (2 <= length cells)%nat -> balance q dt cells T X -> balance q dt cells X Y ->
  (forall i, (S i < length cells)%nat -> flow cells T i <= flow cells X i) -> forall i, (S i < length cells)%nat -> flow cells X i <= flow cells Y i.
Proof.
  intros Hdt Hp Hn (_ & B & BL) (_ & B' & BL') HT. set (n := length cells) in *. set (F := fun i => flow cells Y i - flow cells X i).
  set (E := fun i => at_ Y i - 2 * at_ X i + at_ T i).
  assert (Rise : forall i, (S i < n)%nat -> heat_capacity (cell_at cells i) * E i = dt * (match i with O => 0 | S j => F j end - F i)).
  { intros i Hi. specialize (B i Hi). specialize (B' i Hi). unfold E, F. destruct i as [|j]; nra. }
  assert (El : E (n - 1)%nat = 0) by (unfold E; rewrite BL', BL; ring).
  destruct (minimum_index F (n - 1) ltac:(lia)) as (m & Hm & Hmin).
  assert (Main : 0 <= F m).
  { apply Rnot_lt_le. intro N. assert (Hm' : (S m < n)%nat) by lia. destruct (Hp m Hm') as (PC & PG).
    assert (A : 0 <= E m).
    { apply pos_of_prod with (heat_capacity (cell_at cells m)); [exact PC|]. rewrite Rise by exact Hm'. apply Rmult_le_pos; [lra|].
      destruct m as [|j]; [lra|]. specialize (Hmin j ltac:(lia)). lra. }
    assert (D : E (S m) <= 0).
    { destruct (Nat.eq_dec (S (S m)) n) as [e|ne]; [replace (S m) with (n - 1)%nat by lia; rewrite El; lra|].
      assert (Hm2 : (S (S m) < n)%nat) by lia. destruct (Hp (S m) Hm2) as (PC2 & _). specialize (Hmin (S m) ltac:(lia)).
      assert (0 <= - E (S m)); [|lra]. apply pos_of_prod with (heat_capacity (cell_at cells (S m))); [exact PC2|].
      replace (heat_capacity (cell_at cells (S m)) * - E (S m)) with (- (heat_capacity (cell_at cells (S m)) * E (S m))) by ring.
      rewrite Rise by exact Hm2. assert (0 <= dt * (F (S m) - F m)) by (apply Rmult_le_pos; lra). lra. }
    specialize (HT m Hm'). assert (0 <= conductance (cell_at cells m) (cell_at cells (S m)) * (E m - E (S m))) by (apply Rmult_le_pos; lra).
    assert (F m = flow cells X m - flow cells T m + conductance (cell_at cells m) (cell_at cells (S m)) * (E m - E (S m))) by (unfold F, E, flow; ring).
    lra. }
  intros i Hi. specialize (Hmin i ltac:(lia)). unfold F in *. lra.
Qed.

Section Time.
Variables (solver : list R -> list R -> list R -> list R -> list R) (q dt : R) (cells : list cell).
Hypotheses (Hs : good_solver solver) (Hn : (2 <= length cells)%nat) (Hdt : 0 < dt) (Hp : physical cells).
Let T a k := after solver q dt cells (uniform cells a) k.

Lemma after_flows_grow a k : 0 <= q -> forall i, (S i < length cells)%nat -> flow cells (T a k) i <= flow cells (T a (S k)) i.
Proof.
  intro Hq. induction k as [|k IH]; intros i Hi.
  - unfold T. change (after solver q dt cells (uniform cells a) 0) with (uniform cells a). rewrite uniform_flow by assumption.
    apply (after_flows solver q dt cells Hs Hn Hdt Hp a 1 i Hq Hi).
  - apply (flows_grow q dt cells (T a k) (T a (S k)) (T a (S (S k))) Hdt Hp Hn); try assumption.
    + apply after_balance; try assumption. apply uniform_length.
    + apply after_balance; try assumption. apply uniform_length.
Qed.
Lemma fluid_balance a k : heat_capacity (cell_at cells 0) * (at_ (T a (S k)) 0 - at_ (T a k) 0) = dt * (q - flow cells (T a (S k)) 0).
Proof.
  destruct (after_balance solver q dt cells Hs Hn Hdt Hp k (uniform cells a) (uniform_length cells a)) as (_ & B & _).
  specialize (B 0%nat ltac:(lia)). exact B.
Qed.
Lemma fluid_concave a k : 0 <= q -> at_ (T a (S (S k))) 0 - at_ (T a (S k)) 0 <= at_ (T a (S k)) 0 - at_ (T a k) 0.
Proof.
  intro Hq. pose proof (fluid_balance a k) as B1. pose proof (fluid_balance a (S k)) as B2. pose proof (after_flows_grow a (S k) Hq 0 ltac:(lia)) as F.
  destruct (Hp 0%nat ltac:(lia)) as (PC & _).
  assert (P : 0 <= dt * (flow cells (T a (S (S k))) 0 - flow cells (T a (S k)) 0)) by (apply Rmult_le_pos; lra).
  set (C := heat_capacity (cell_at cells 0)) in *.
  assert (0 <= (at_ (T a (S k)) 0 - at_ (T a k) 0) - (at_ (T a (S (S k))) 0 - at_ (T a (S k)) 0)); [|lra].
  apply pos_of_prod with C; [exact PC|]. nra.
Qed.
Lemma fluid_rises a k : 0 < q -> at_ (T a k) 0 < at_ (T a (S k)) 0.
Proof.
  intro Hq. induction k as [|k IH].
  - unfold T at 1. change (after solver q dt cells (uniform cells a) 0) with (uniform cells a). rewrite uniform_at by (assumption || lia). now apply first_step_strict.
  - assert (Rs : forall i, (i < length cells)%nat -> at_ (T a (S k)) i <= at_ (T a (S (S k))) i) by (apply (after_rises solver q dt cells Hs Hn Hdt Hp a (S k)); lra).
    pose proof (Rs 0%nat ltac:(lia)) as [R0|R0]; [exact R0|exfalso].
    pose proof (Rs 1%nat ltac:(lia)) as R1.
    pose proof (fluid_balance a k) as B1. pose proof (fluid_balance a (S k)) as B2. destruct (Hp 0%nat ltac:(lia)) as (PC & PG).
    set (C := heat_capacity (cell_at cells 0)) in *.
    assert (G : flow cells (T a (S (S k))) 0 <= flow cells (T a (S k)) 0) by (unfold flow; apply Rmult_le_compat_l; lra).
    replace (at_ (T a (S (S k))) 0 - at_ (T a (S k)) 0) with 0 in B2 by lra. rewrite Rmult_0_r in B2.
    assert (0 <= dt * (flow cells (T a (S k)) 0 - flow cells (T a (S (S k))) 0)) by (apply Rmult_le_pos; lra).
    assert (0 < C * (at_ (T a (S k)) 0 - at_ (T a k) 0)) by (apply Rmult_lt_0_compat; lra). lra.
Qed.
End Time.
