(** C62: the yield callbacks.  A callback [f : W -> option W] acts on the state of the rest of the program, None = it throws.
    times k f w: k calls; then_return r: the result, unless a call threw (SpecYield.v). *)
From Coq Require Import ZArith List Bool Lia.
From Verif Require Import SpecYield ModelWord ModelScalar ModelFp ModelTower ModelCurve ModelPairing ModelKeys ModelYield YieldProof.
From Verif Require Import Properties_Mem.
Import ListNotations.
Local Open Scope Z_scope.

(** weightedSum of n pairs with window width c makes exactly (255/c + 1) * (2 * ceil((2^c - 1)/256) + ceil(n/256)) calls, stops at the
    first exception, and otherwise returns the same point as without a callback *)
Theorem C62_weightedSum_g1 : forall W (f : W -> option W) points scalars w,
  let n := Nat.min (length points) (length scalars) in let c := ws_width n in
  y_weightedSum (Some f) fp_ops points scalars w =
  then_return (g1_weightedSum points scalars) (times ((255 / c + 1) * (2 * ((2 ^ c - 1 + 255) / 256) + (n + 255) / 256)) f w).
Proof.
  intros W f points scalars w n c. unfold g1_weightedSum. rewrite (y_weightedSum_ok (Some f) fp_ops). cbv zeta. rewrite combine_length. reflexivity.
Qed.
Theorem C62_weightedSum_g2 : forall W (f : W -> option W) points scalars w,
  let n := Nat.min (length points) (length scalars) in let c := ws_width n in
  y_weightedSum (Some f) fp2_ops points scalars w =
  then_return (g2_weightedSum points scalars) (times ((255 / c + 1) * (2 * ((2 ^ c - 1 + 255) / 256) + (n + 255) / 256)) f w).
Proof.
  intros W f points scalars w n c. unfold g2_weightedSum. rewrite (y_weightedSum_ok (Some f) fp2_ops). cbv zeta. rewrite combine_length. reflexivity.
Qed.
Theorem C62_weightedSum_none : forall W (w : W),
  (forall points scalars, y_weightedSum None fp_ops points scalars w = Some (g1_weightedSum points scalars, w)) /\
  (forall points scalars, y_weightedSum None fp2_ops points scalars w = Some (g2_weightedSum points scalars, w)).
Proof. intros W w. split; intros p s; [rewrite (y_weightedSum_ok None fp_ops)|rewrite (y_weightedSum_ok None fp2_ops)]; reflexivity. Qed.
(** pairing::calculate calls back once if there are 20 pairs or more, however many, and never for fewer *)
Theorem C62_calculate : forall W (f : W -> option W) ps w,
  y_calculate (Some f) ps w =
  then_return (calculate ps) (if Z.of_nat (length ps) <? 20 then Some w else f w).
Proof.
  intros W f ps w. rewrite y_calculate_ok by (apply pre_all_total; intros tp; destruct (C53_pre_compute tp) as (l & E & _); exists l; exact E).
  generalize (calculate ps). intros r. rewrite Z.leb_antisym. destruct (Z.of_nat (length ps) <? 20); cbn [negb yb times]; [reflexivity|]. destruct (f w); reflexivity.
Qed.
Theorem C62_calculate_none : forall W ps (w : W), y_calculate None ps w = Some (calculate ps, w).
Proof.
  intros W ps w. rewrite y_calculate_ok by (apply pre_all_total; intros tp; destruct (C53_pre_compute tp) as (l & E & _); exists l; exact E). reflexivity.
Qed.
(** a callback that counts and gives up after 100 calls; for one pair 258 calls are due *)
Definition budget (n : Z) : option Z := if n <? 100 then Some (n + 1) else None.
Example C62_example : forall p s, y_weightedSum (Some budget) fp_ops [p] [s] 0 = None /\
  y_weightedSum (Some (fun n => Some (n + 1))) fp_ops [p] [s] 0 = Some (g1_weightedSum [p] [s], 258) /\
  y_calculate (Some budget) (repeat (g1_BASE, g2_BASE) 19) 100 = Some (calculate (repeat (g1_BASE, g2_BASE) 19), 100) /\
  y_calculate (Some budget) (repeat (g1_BASE, g2_BASE) 20) 100 = None.
Proof.
  intros p s. split; [rewrite C62_weightedSum_g1; reflexivity|]. split; [rewrite C62_weightedSum_g1; reflexivity|].
  split; rewrite C62_calculate, repeat_length; reflexivity.
Qed.

Definition props_yield := (C62_weightedSum_g1, C62_weightedSum_g2, C62_weightedSum_none, C62_calculate, C62_calculate_none).
Print Assumptions props_yield.
