From Coq Require Import ZArith List Bool Lia.
From Verif Require Import SpecYield ModelWord ModelScalar ModelFp ModelTower ModelCurve ModelPairing ModelKeys ModelYield.
Import ListNotations.
Local Open Scope Z_scope.

(** number of multiples of 256 among the n integers from i *)
Definition mult (i : Z) (n : nat) : nat := Z.to_nat ((i + Z.of_nat n + 255) / 256 - (i + 255) / 256).
Definition yb {W} (y : option (W -> option W)) (k : nat) (w : W) : option W := match y with Some f => times k f w | None => Some w end.
Lemma yb_add {W} (y : option (W -> option W)) j k w : yb y (j + k) w = match yb y j w with Some w => yb y k w | None => None end.
Proof. destruct y as [f|]; cbn [yb]; [|reflexivity]. revert w. induction j as [|j IH]; intros w; cbn [Nat.add times]; [reflexivity|]. destruct (f w); [apply IH|reflexivity]. Qed.
Lemma land255 i : Z.land i 255 = i mod 256. Proof. change 255 with (Z.ones 8). rewrite Z.land_ones by lia. reflexivity. Qed.
Lemma call_yb {W} (y : option (W -> option W)) c w : call y c w = yb y (if c then 1 else 0)%nat w.
Proof. destruct y as [f|]; [|reflexivity]. destruct c; cbn; [destruct (f w)|]; reflexivity. Qed.
Lemma mult_S i n : 0 <= i -> mult i (S n) = ((if Z.eqb (Z.land i 255) 0 then 1 else 0) + mult (i + 1) n)%nat.
Proof.
  intros Hi. unfold mult. rewrite land255. rewrite Nat2Z.inj_succ. replace (i + Z.succ (Z.of_nat n) + 255) with (i + 1 + Z.of_nat n + 255) by lia.
  set (N := i + 1 + Z.of_nat n + 255).
  assert (M : (i + 1 + 255) / 256 <= N / 256) by (apply Z.div_le_mono; unfold N; lia).
  assert (E : (i + 1 + 255) / 256 = (i + 255) / 256 + (if i mod 256 =? 0 then 1 else 0)).
  { clear M N. pose proof (Z.div_mod i 256 ltac:(lia)) as D. pose proof (Z.mod_pos_bound i 256 ltac:(lia)) as B.
    destruct (Z.eqb_spec (i mod 256) 0) as [Z0|N0].
    - replace (i + 1 + 255) with (0 + (i / 256 + 1) * 256) by lia. replace (i + 255) with (255 + (i / 256) * 256) by lia. rewrite !Z.div_add by lia.
      change (0 / 256) with 0. change (255 / 256) with 0. lia.
    - replace (i + 1 + 255) with (i mod 256 + (i / 256 + 1) * 256) by lia. replace (i + 255) with ((i mod 256 - 1) + (i / 256 + 1) * 256) by lia. rewrite !Z.div_add by lia.
      rewrite (Z.div_small (i mod 256)), (Z.div_small (i mod 256 - 1)) by lia. ring. }
  revert M E. generalize (N / 256) ((i + 255) / 256) ((i + 1 + 255) / 256). intros a b c M E. destruct (i mod 256 =? 0); clear -M E; lia.
Qed.
Lemma mult_last n : mult 0 (S n) = ((if Z.eqb (Z.land (Z.of_nat n) 255) 0 then 1 else 0) + mult 0 n)%nat.
Proof.
  assert (H : forall n i, 0 <= i -> mult i (S n) = (mult i n + (if Z.eqb (Z.land (i + Z.of_nat n) 255) 0 then 1 else 0))%nat).
  { clear n. induction n as [|n IH]; intros i Hi.
    - rewrite mult_S by exact Hi. rewrite Z.add_0_r. assert (Z0 : forall j, mult j 0 = 0%nat) by (intros j; unfold mult; rewrite Z.add_0_r, Z.sub_diag; reflexivity).
      rewrite !Z0. apply Nat.add_comm.
    - rewrite mult_S by exact Hi. rewrite IH by lia. rewrite (mult_S i n) by exact Hi. replace (i + 1 + Z.of_nat n) with (i + Z.of_nat (S n)) by lia. apply Nat.add_assoc. }
  rewrite H by lia. apply Nat.add_comm.
Qed.
Lemma mult_0 n : mult 0 n = ((n + 255) / 256)%nat.
Proof.
  unfold mult. change ((0 + 255) / 256) with 0. rewrite Z.sub_0_r, Z.add_0_l. change 255 with (Z.of_nat 255). change 256 with (Z.of_nat 256).
  rewrite <- Nat2Z.inj_add, <- Nat2Z.inj_div. apply Nat2Z.id.
Qed.

Section P.
Context {W : Type} (y : option (W -> option W)).
Lemma y_up_ok {S} (n : nat) : forall i (body : Z -> S -> S) s w, 0 <= i ->
  y_up y n i body s w = then_return (fold_left (fun s k => body (i + Z.of_nat k) s) (seq 0 n) s) (yb y (mult i n) w).
Proof.
  induction n as [|n IH]; intros i body s w Hi.
  - cbn [y_up seq fold_left]. unfold mult. rewrite Z.add_0_r, Z.sub_diag. destruct y; reflexivity.
  - cbn [y_up]. rewrite call_yb, mult_S, yb_add by exact Hi. destruct (yb y _ w) as [w'|]; [|reflexivity]. rewrite IH by lia. f_equal.
    cbn [seq fold_left]. rewrite Z.add_0_r. rewrite <- seq_shift. generalize (body i s). generalize (seq 0 n).
    induction l as [|k l IHl]; intros s'; cbn [map fold_left]; [reflexivity|]. replace (i + 1 + Z.of_nat k) with (i + Z.of_nat (Datatypes.S k)) by lia. apply IHl.
Qed.
Lemma y_down_ok {S} (n : nat) : forall (body : Z -> S -> S) s w,
  y_down y n body s w = then_return (fold_left (fun s k => body (Z.of_nat k) s) (rev (seq 0 n)) s) (yb y (mult 0 n) w).
Proof.
  induction n as [|n IH]; intros body s w.
  - cbn. destruct y; reflexivity.
  - cbn [y_down]. rewrite call_yb, mult_last, yb_add. destruct (yb y _ w) as [w'|]; [|reflexivity]. rewrite IH.
    rewrite seq_S, rev_app_distr. reflexivity.
Qed.
Context {T : Type} (o : fops T).
Lemma skip1 {A} (l : list A) : forall n, skipn 1 (skipn n l) = skipn (n + 1) l.
Proof. intros n. rewrite Nat.add_comm. revert l. induction n as [|n IH]; intros [|a l]; try reflexivity. exact (IH l). Qed.
Lemma clear_ok (bk : list (jac T)) : forall n, (n <= length bk)%nat ->
  fold_left (fun s k => bucket_clear o (0 + Z.of_nat k) s) (seq 0 n) bk = repeat (j_zero o) n ++ skipn n bk.
Proof.
  induction n as [|n IH]; intros L; [reflexivity|]. rewrite seq_S, fold_left_app, IH by lia. cbn [Nat.add fold_left]. rewrite Z.add_0_l. unfold bucket_clear.
  rewrite Nat2Z.id. rewrite firstn_app, repeat_length, Nat.sub_diag, firstn_O, app_nil_r, firstn_all2 by (rewrite repeat_length; lia).
  rewrite skipn_app, repeat_length. rewrite skipn_all2 by (rewrite repeat_length; lia). cbn [app].
  replace (S n - n)%nat with 1%nat by lia. change (S n) with (1 + n)%nat. rewrite Nat.add_comm, repeat_app, <- app_assoc. cbn [repeat app]. do 2 f_equal.
  apply skip1.
Qed.
Lemma fold_nth {A B} (f : B -> A -> B) (d : A) (l : list A) : forall s, fold_left (fun s k => f s (nth k l d)) (seq 0 (length l)) s = fold_left f l s.
Proof.
  induction l as [|a l IH]; intros s; [reflexivity|]. cbn [length seq fold_left nth]. rewrite <- seq_shift. rewrite <- IH.
  generalize (f s a). generalize (seq 0 (length l)). induction l0 as [|k l0 IHl]; intros s'; cbn [map fold_left]; [reflexivity|apply IHl].
Qed.
Lemma map_nth_seq {A} (d : A) (l : list A) : map (fun k => nth k l d) (seq 0 (length l)) = l.
Proof. induction l as [|a l IH]; [reflexivity|]. cbn [length seq map nth]. f_equal. rewrite <- seq_shift, map_map. exact IH. Qed.
Lemma fold_nth_rev {A B} (f : B -> A -> B) (d : A) (l : list A) s : fold_left (fun s k => f s (nth k l d)) (rev (seq 0 (length l))) s = fold_left f (rev l) s.
Proof.
  rewrite <- (map_nth_seq d l) at 2. rewrite <- map_rev. generalize (rev (seq 0 (length l))). intros q. revert s. induction q as [|k q IH]; intros s; [reflexivity|]. cbn [fold_left map]. apply IH.
Qed.
Lemma bucket_add_len (bk : list (jac T)) i p : length (bucket_add o bk i p) = length bk.
Proof. revert i. induction bk as [|q bk IH]; intros [|i]; cbn [bucket_add length]; auto. Qed.
Lemma ws_fill_len c j ps : forall bk, length (ws_fill o c j ps bk) = length bk.
Proof.
  unfold ws_fill. induction ps as [|p ps IH]; intros bk; [reflexivity|]. cbn [fold_left]. rewrite IH. destruct (_ =? 0); [reflexivity|apply bucket_add_len].
Qed.
Definition per_window (c n : nat) : nat := (2 * ((Nat.pow 2 c - 1 + 255) / 256) + (n + 255) / 256)%nat.
Lemma y_window_ok c ps j bk w : length bk = (Nat.pow 2 c - 1)%nat ->
  exists bk', length bk' = (Nat.pow 2 c - 1)%nat /\ y_window y o c ps j bk w = then_return (ws_window o c ps j, bk') (yb y (per_window c (length ps)) w).
Proof.
  intros L. exists (ws_fill o c j ps (repeat (j_zero o) (Nat.pow 2 c - 1))). split; [rewrite ws_fill_len; apply repeat_length|].
  unfold y_window, per_window. rewrite y_up_ok by lia. rewrite clear_ok by lia. rewrite <- L at 2. rewrite skipn_all, app_nil_r.
  replace (2 * ((Nat.pow 2 c - 1 + 255) / 256) + (length ps + 255) / 256)%nat with (mult 0 (Nat.pow 2 c - 1) + (mult 0 (length ps) + mult 0 (Nat.pow 2 c - 1)))%nat by (rewrite !mult_0; lia).
  rewrite yb_add. destruct (yb y (mult 0 (Nat.pow 2 c - 1)) w) as [w1|]; [|reflexivity]. cbn [then_return].
  rewrite y_up_ok by lia. rewrite yb_add. destruct (yb y (mult 0 (length ps)) w1) as [w2|]; [|reflexivity]. cbn [then_return].
  set (F := fold_left _ (seq 0 (length ps)) _).
  assert (HF : F = ws_fill o c j ps (repeat (j_zero o) (Nat.pow 2 c - 1))).
  { unfold F, ws_fill. rewrite <- (fold_nth _ (j_zero o, [])). generalize (repeat (j_zero o) (Nat.pow 2 c - 1)). generalize (seq 0 (length ps)). clear.
    induction l as [|k l IH]; intros b; [reflexivity|]. cbn [fold_left]. rewrite Z.add_0_l, Nat2Z.id. apply IH. }
  rewrite HF. clear F HF. rewrite y_down_ok. destruct (yb y (mult 0 (Nat.pow 2 c - 1)) w2) as [w3|]; [|reflexivity]. cbn [then_return]. do 3 f_equal.
  unfold ws_window, ws_acc. f_equal. set (bk2 := ws_fill _ _ _ _ _). assert (L2 : length bk2 = (Nat.pow 2 c - 1)%nat) by (unfold bk2; rewrite ws_fill_len; apply repeat_length).
  rewrite <- (fold_nth_rev _ (j_zero o)), L2. generalize (j_zero o, j_zero o). generalize (rev (seq 0 (Nat.pow 2 c - 1))). clear.
  induction l as [|k l IH]; intros b; [reflexivity|]. cbn [fold_left]. rewrite Nat2Z.id. apply IH.
Qed.
Lemma y_windows_ok c ps : forall n j bk w, length bk = (Nat.pow 2 c - 1)%nat ->
  y_windows y o n j c ps bk w = then_return (map (ws_window o c ps) (seq j n)) (yb y (n * per_window c (length ps)) w).
Proof.
  induction n as [|n IH]; intros j bk w L.
  - cbn. destruct y; reflexivity.
  - cbn [y_windows]. destruct (y_window_ok c ps j bk w L) as (bk' & L' & ->). cbn [Nat.mul]. rewrite yb_add.
    destruct (yb y (per_window c (length ps)) w) as [w1|]; [|reflexivity]. cbn [then_return]. rewrite IH by exact L'.
    destruct (yb y (n * _) w1); reflexivity.
Qed.
Lemma y_weightedSum_ok points scalars w :
  y_weightedSum y o points scalars w =
  then_return (j_weightedSum o points scalars)
    (let c := ws_width (length (combine points scalars)) in yb y ((255 / c + 1) * per_window c (length (combine points scalars))) w).
Proof.
  unfold y_weightedSum, j_weightedSum. cbv zeta. set (ps := combine points scalars). set (c := ws_width (length ps)). generalize (255 / c + 1)%nat. intros N.
  rewrite y_windows_ok by apply repeat_length. destruct (yb y (N * per_window c (length ps)) w); reflexivity.
Qed.
Lemma pre_all_total ps : (forall tp, exists l, pre_compute tp = Ok l) -> exists cs, pre_all ps = Ok cs.
Proof.
  intros H. induction ps as [|[p q] ps [cs IH]]; [exists []; reflexivity|]. cbn [pre_all]. destruct (H q) as [l ->]. rewrite IH. eexists. reflexivity.
Qed.
Lemma y_calculate_ok ps w : (exists cs, pre_all ps = Ok cs) ->
  y_calculate y ps w = then_return (calculate ps) (yb y (if Z.leb 20 (Z.of_nat (length ps)) then 1 else 0)%nat w).
Proof.
  intros [cs E]. unfold y_calculate, calculate. destruct ps as [|a ps]; [destruct y; reflexivity|]. generalize final_exponentiation. intros fe.
  unfold y_miller_loop, miller_loop. rewrite E. rewrite call_yb. cbn [obind]. generalize (mil_loop 63 0 cs fp12_one). intros r.
  destruct (yb y _ w); reflexivity.
Qed.
End P.
