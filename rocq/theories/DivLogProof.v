(** Proofs about the branch log of the division. *)
From Coq Require Import ZArith List Bool Lia.
From Verif Require Import SpecKeys SpecField ModelWord ModelScalar ScalarProof CarryProof ModelPrim ModelFp PortArith ModelDiv DivProof ModelCurve ModelCodec ModelSha ModelKeys KeysProof ModelDivLog.
Import ListNotations.
Local Open Scope Z_scope.

(** ** the log changes no result *)
Lemma tdiv_top_er bs : forall fuel a c, fst (tdiv_top fuel a bs c) = div_top fuel a bs c.
Proof.
  induction fuel as [|fuel IH]; intros a c; [reflexivity|]. cbn [tdiv_top div_top].
  destruct (dv_cmp a bs); [|reflexivity|]; rewrite <- IH; destruct (tdiv_top fuel _ bs _); reflexivity.
Qed.
Lemma tdiv_qhat_er t1 t2 : forall fuel q, fst (tdiv_qhat fuel t1 t2 q) = div_qhat fuel t1 t2 q.
Proof.
  induction fuel as [|fuel IH]; intros q; [reflexivity|]. cbn [tdiv_qhat div_qhat].
  destruct (bn_mul1_low t1 q) as [l cy]. destruct (dv_cmp (l ++ [cy]) t2); try reflexivity. rewrite <- IH. destruct (tdiv_qhat fuel t1 t2 (q - 1)); reflexivity.
Qed.
Lemma tdiv_step_er cap i a b : fst (tdiv_step cap i a b) = div_step cap i a b.
Proof.
  unfold tdiv_step, div_step. rewrite <- tdiv_qhat_er. destruct (tdiv_qhat 8 _ _ _) as [[q|] l]; [|reflexivity]. cbn [fst].
  destruct (bn_mul1_low b q) as [d cy]. destruct (negb _); [reflexivity|]. destruct (bn_subn_low _ _) as [w cy2].
  match goal with |- fst (let (_, _) := ?e in _) = _ => destruct e as [a1 cy3] end.
  destruct (cy3 =? 0); [reflexivity|]. destruct (bn_addn_low _ _) as [w2 cy4]. destruct (bn_add1_low _ _) as [w3 cy5]. reflexivity.
Qed.
Lemma tdiv_loop_er cap b : forall m a c, fst (tdiv_loop cap m a b c) = div_loop cap m a b c.
Proof.
  induction m as [|m IH]; intros a c; [reflexivity|]. cbn [tdiv_loop div_loop]. rewrite <- tdiv_step_er.
  destruct (tdiv_step cap _ a b) as [[[a1 q]| |] l]; try reflexivity. cbn [fst]. rewrite <- IH. destruct (tdiv_loop cap m a1 b _); reflexivity.
Qed.
Lemma tdivn_low_er cap c a b : fst (tdivn_low cap c a b) = bn_divn_low cap c a b.
Proof.
  unfold tdivn_low, bn_divn_low.
  match goal with |- fst (let (_, _) := ?e in _) = _ => destruct e as [a1 ca] end.
  match goal with |- fst (let (_, _) := ?e in _) = _ => destruct e as [b1 cb] end.
  destruct (append cap a1 ca) as [a2| |]; destruct (append cap b1 cb) as [b2| |]; try reflexivity.
  destruct (Nat.ltb _ _); [reflexivity|]. rewrite <- tdiv_top_er. destruct (tdiv_top 8 _ _ _) as [[[a3 q]|] l]; [|reflexivity]. cbn [fst].
  rewrite <- tdiv_loop_er. destruct (tdiv_loop cap _ _ _ _) as [[[a4 c4]| |] l']; reflexivity.
Qed.
Lemma tdivn_safe_er a b : fst (tdivn_safe a b) = bn_divn_safe a b.
Proof. unfold tdivn_safe, bn_divn_safe. rewrite <- tdivn_low_er. destruct (tdivn_low _ _ a b) as [[[q r]| |] l]; reflexivity. Qed.
Lemma tbind_er {A B} (x : outcome A * list dbr) (f : A -> outcome B * list dbr) : fst (tbind x f) = obind (fst x) (fun a => fst (f a)).
Proof. destruct x as [[a| |] l]; cbn [tbind fst obind]; try reflexivity. destruct (f a); reflexivity. Qed.
Lemma treduce_er k : fst (treduce k) = reduce k.
Proof. unfold treduce, reduce. rewrite tbind_er, tdivn_safe_er. reflexivity. Qed.
Lemma tagg_er : forall sks ret, fst (tagg_sk_loop ret sks) = agg_sk_loop ret sks.
Proof.
  induction sks as [|sk sks IH]; intros ret; [reflexivity|]. cbn [tagg_sk_loop agg_sk_loop]. rewrite tbind_er. cbn [fst].
  destruct (scalar_add 4 ret sk) as [s| |]; try reflexivity. cbn [obind]. rewrite tbind_er, treduce_er. destruct (reduce s) as [r| |]; try reflexivity. apply IH.
Qed.
Lemma taggregate_er sks : fst (taggregate_secret_keys sks) = aggregate_secret_keys sks.
Proof. destruct sks as [|sk sks]; [reflexivity|]. apply tagg_er. Qed.
Lemma tchild_er sk i : fst (tderive_child_sk_unhardened sk i) = derive_child_sk_unhardened sk i.
Proof.
  unfold tderive_child_sk_unhardened, derive_child_sk_unhardened. cbv zeta. rewrite tbind_er, treduce_er. unfold sk_from_bytes.
  destruct (reduce _) as [n| |]; try reflexivity. apply taggregate_er.
Qed.

(** ** the while loop runs once for each unit of the top digit *)
Lemma tdiv_top_log bs : words bs -> 0 < val bs -> forall fuel a c, words a -> length a = length bs -> val a < Z.of_nat fuel * val bs ->
  snd (tdiv_top fuel a bs c) = repeat (BTop true) (Z.to_nat (val a / val bs)) ++ [BTop false].
Proof.
  intros Hbs Pb. induction fuel as [|fuel IH]; intros a c Ha La B; [pose proof (val_nonneg a Ha); lia|].
  cbn [tdiv_top]. rewrite dv_cmp_ok by auto. pose proof (val_nonneg a Ha) as A0.
  assert (STEP : val bs <= val a -> snd (let (r, l) := tdiv_top fuel (fst (bn_subn_low a bs)) bs ((c + 1) mod W) in (r, BTop true :: l)) =
      repeat (BTop true) (Z.to_nat (val a / val bs)) ++ [BTop false]).
  { intros GE. unfold bn_subn_low. destruct (subn_loop_ok a bs 0 Ha Hbs La ltac:(left; reflexivity)) as (l & cy & -> & Hl & Ll & Hcy & V). cbn [fst].
    pose proof (val_bound l Hl) as Bl. rewrite Ll in Bl. pose proof (val_bound a Ha).
    assert (cy = 0) by (destruct Hcy; subst cy; [reflexivity|lia]). subst cy.
    assert (V1 : val l = val a - val bs) by lia.
    specialize (IH l ((c + 1) mod W) Hl ltac:(lia) ltac:(lia)). destruct (tdiv_top fuel l bs ((c + 1) mod W)) as [r lg]. cbn [snd] in *. rewrite IH, V1.
    replace (val a / val bs) with (1 + (val a - val bs) / val bs).
    - rewrite Z2Nat.inj_add by (try lia; apply Z.div_pos; lia). reflexivity.
    - replace (val a) with (1 * val bs + (val a - val bs)) at 2 by ring. rewrite Z.div_add_l by lia. reflexivity. }
  destruct (Z.compare_spec (val a) (val bs)) as [E|E|E].
  - apply STEP. lia.
  - rewrite Z.div_small by lia. reflexivity.
  - apply STEP. lia.
Qed.
Lemma val_lshd b m : val (dv_lshd b m) = W ^ Z.of_nat m * val b.
Proof. unfold dv_lshd. rewrite val_app, repeat_length, val_repeat0. ring. Qed.

(** one round of the loop for the digits: at most [n] corrections, in the order of scalar.cpp:290-329 *)
Definition digit_round (l : list dbr) : Prop :=
  exists e n g m k, l = BEq e :: repeat (BLower true) n ++ [BLower false; BLong g; BMore m; BBack k].
Lemma tdiv_qhat_log t1 t2 : forall fuel q q' l, tdiv_qhat fuel t1 t2 q = (Some q', l) -> exists n, l = repeat (BLower true) n ++ [BLower false].
Proof.
  induction fuel as [|fuel IH]; intros q q' l E; [discriminate E|]. cbn [tdiv_qhat] in E.
  destruct (bn_mul1_low t1 q) as [m cy]. destruct (dv_cmp (m ++ [cy]) t2); [injection E as _ <-; exists 0%nat; reflexivity|injection E as _ <-; exists 0%nat; reflexivity|].
  destruct (tdiv_qhat fuel t1 t2 (q - 1)) as [r l'] eqn:E'. injection E as -> <-. destruct (IH _ _ _ E') as (n & ->). exists (S n). reflexivity.
Qed.
Lemma tdiv_step_log cap i a b r l : tdiv_step cap i a b = (Ok r, l) -> digit_round l.
Proof.
  unfold tdiv_step. destruct (tdiv_qhat 8 _ _ _) as [[q|] l0] eqn:E0; [|discriminate]. destruct (tdiv_qhat_log _ _ _ _ _ _ E0) as (n & ->).
  destruct (bn_mul1_low b q) as [d cy]. destruct (negb (_ && _)); [discriminate|]. destruct (bn_subn_low _ _) as [w cy2].
  match goal with |- (let (_, _) := ?e in _) = _ -> _ => destruct e as [a1 cy3] end.
  set (e := limb a i =? _). set (g := negb (cy =? 0)). set (m := Nat.ltb _ _). intros E. exists e, n, g, m, (negb (cy3 =? 0)).
  assert (L : l = (BEq e :: (repeat (BLower true) n ++ [BLower false]) ++ [BLong g]) ++ [BMore m; BBack (negb (cy3 =? 0))]).
  { revert E. destruct (cy3 =? 0); [intros E; injection E; auto|]. destruct (bn_addn_low _ _) as [w4 cy4]. destruct (bn_add1_low _ _) as [w5 cy5]. intros E; injection E; auto. }
  rewrite L. cbn [app]. rewrite <- !app_assoc. reflexivity.
Qed.
Lemma tdiv_loop_log cap b : forall m a c r l, tdiv_loop cap m a b c = (Ok r, l) -> exists rs, length rs = m /\ Forall digit_round rs /\ l = concat rs.
Proof.
  induction m as [|m IH]; intros a c r l E; [exists []; injection E as _ <-; auto|]. cbn [tdiv_loop] in E.
  destruct (tdiv_step cap _ a b) as [[[a1 q]| |] l1] eqn:E1; try discriminate E. destruct (tdiv_loop cap m a1 b _) as [r2 l2] eqn:E2. injection E as -> <-.
  destruct (IH _ _ _ _ E2) as (rs & L & F & ->). exists (l1 :: rs). split; [cbn [length]; congruence|]. split; [constructor; [exact (tdiv_step_log _ _ _ _ _ _ E1)|exact F]|reflexivity].
Qed.
Lemma treduce_top k j : words k -> length k = (4 + j)%nat ->
  exists l, snd (treduce k) = repeat (BTop true) (Z.to_nat (val k / (order * W ^ Z.of_nat j))) ++ [BTop false] ++ l /\ (forall r, fst (treduce k) = Ok r -> exists rs, length rs = j /\ Forall digit_round rs /\ l = concat rs).
Proof.
  intros Hk L. unfold treduce.
  assert (T : tdiv_top 8 k (dv_lshd Ql j) 0 = (fst (tdiv_top 8 k (dv_lshd Ql j) 0), repeat (BTop true) (Z.to_nat (val k / (order * W ^ Z.of_nat j))) ++ [BTop false])).
  { rewrite (surjective_pairing (tdiv_top 8 k (dv_lshd Ql j) 0)) at 1. f_equal.
    pose proof (Wpow_pos j) as P. pose proof (val_bound k Hk) as Bk. rewrite L, Nat2Z.inj_add, Z.pow_add_r in Bk by lia.
    rewrite (tdiv_top_log (dv_lshd Ql j)), val_lshd, Ql_val, (Z.mul_comm order); auto.
    - apply Forall_app. split; [|exact Ql_words]. apply Forall_forall. intros x Hx. apply repeat_spec in Hx. subst x. split; [discriminate|reflexivity].
    - rewrite val_lshd, Ql_val. apply Z.mul_pos_pos; [exact P|reflexivity].
    - unfold dv_lshd. rewrite app_length, repeat_length, L. cbn [Ql length]. lia.
    - rewrite val_lshd, Ql_val. assert (O : W ^ Z.of_nat 4 <= Z.of_nat 8 * order) by discriminate.
      assert (W ^ Z.of_nat 4 * W ^ Z.of_nat j <= Z.of_nat 8 * order * W ^ Z.of_nat j) by (apply Z.mul_le_mono_nonneg_r; [lia|exact O]). clear O. lia. }
  unfold tdivn_safe, tdivn_low. change (limb Ql (length Ql - 1)) with 8353516859464449352. change ((64 - clz64 8353516859464449352) mod 64) with 63.
  cbn [Z.ltb Z.compare Pos.compare Pos.compare_cont]. cbn [append Z.eqb].
  change (length Ql) with 4%nat. rewrite L. replace (4 + j - 1)%nat with (3 + j)%nat by lia. change (4 - 1)%nat with 3%nat.
  replace (3 + j - 3)%nat with j by lia. rewrite (proj2 (Nat.ltb_ge (3 + j) 3)) by lia.
  rewrite limb_repeat0, T. destruct (fst (tdiv_top 8 k (dv_lshd Ql j) 0)) as [[a1 q]|].
  - destruct (tdiv_loop _ j a1 _ _) as [[[a2 c2]| |] l'] eqn:E; cbn [tbind snd fst app];
      (exists l'; split; [rewrite ?app_nil_r, <- app_assoc; reflexivity|intros r R; try discriminate R; exact (tdiv_loop_log _ _ _ _ _ _ _ E)]).
  - exists []. cbn [tbind snd fst app]. split; [reflexivity|discriminate].
Qed.
Lemma treduce_rounds k j : words k -> length k = (4 + j)%nat ->
  exists rs, snd (treduce k) = repeat (BTop true) (Z.to_nat (val k / (order * W ^ Z.of_nat j))) ++ [BTop false] ++ concat rs /\ length rs = j /\ Forall digit_round rs.
Proof.
  intros Hk L. destruct (treduce_top k j Hk L) as (l & E & N). destruct (reduce_ok k Hk ltac:(lia)) as (r & Er & _).
  rewrite <- treduce_er in Er. destruct (N r Er) as (rs & Lr & F & ->). exists rs. auto.
Qed.
Lemma treduce4 k : key k -> exists r, treduce k = (Ok r, repeat (BTop true) (Z.to_nat (val k / order)) ++ [BTop false]) /\ key r /\ val r = val k mod order.
Proof.
  intros [Hk L]. destruct (treduce_rounds k 0 Hk L) as (l & E & N & _). apply length_zero_iff_nil in N. subst l. rewrite Z.mul_1_r in E. cbn [concat] in E.
  destruct (reduce_ok k Hk ltac:(lia)) as (r & Er & Kr & Vr). exists r. split; [|auto].
  rewrite (surjective_pairing (treduce k)), treduce_er, Er, E. reflexivity.
Qed.

(** [wrap]: one round of the while loop when the sum reaches the order, none otherwise *)
Definition wrap (s : Z) : list dbr := if order <=? s then [BTop true; BTop false] else [BTop false].
Fixpoint wraps (s : Z) (ks : list Z) : list dbr :=
  match ks with [] => [] | k :: ks => wrap (s + k) ++ wraps ((s + k) mod order) ks end.
Lemma wrap_eq s : 0 <= s < 2 * order -> repeat (BTop true) (Z.to_nat (s / order)) ++ [BTop false] = wrap s.
Proof.
  intros B. unfold wrap. assert (O : 0 < order) by reflexivity. destruct (Z.leb_spec order s).
  - replace (s / order) with 1; [reflexivity|]. apply (Z.div_unique s order 1 (s - order)); lia.
  - rewrite Z.div_small by lia. reflexivity.
Qed.
Lemma tagg_log : forall sks ret, key ret -> val ret < order -> Forall (fun k => key k /\ val k < order) sks -> sum_ok (val ret) (map val sks) ->
  snd (tagg_sk_loop ret sks) = wraps (val ret) (map val sks).
Proof.
  destruct order_small as (O1 & O2 & O3).
  induction sks as [|sk sks IH]; intros ret Kr Br F S; [reflexivity|].
  apply Forall_cons_iff in F. destruct F as [[Ks Bs] F]. cbn [map sum_ok] in S. destruct S as [S1 S2]. cbn [tagg_sk_loop map wraps].
  destruct (add4_ok ret sk Kr Ks ltac:(clear - O2 Br Bs; lia) S1) as (c & E & Kc & V). rewrite E. cbn [tbind app].
  destruct (treduce4 c Kc) as (r & Et & K2 & V2). rewrite Et, V in *. cbn [tbind].
  pose proof (val_nonneg _ (proj1 Kr)). pose proof (val_nonneg _ (proj1 Ks)).
  rewrite wrap_eq by (clear - Br Bs H H0; lia).
  specialize (IH r K2). rewrite V2 in IH. specialize (IH (proj2 (Z.mod_pos_bound _ _ O3)) F S2).
  destruct (tagg_sk_loop r sks) as [o l]. cbn [snd] in *. rewrite IH. reflexivity.
Qed.
