(** The array-level division of ModelMem.v, continued: digits, rounds, bn_divn_safe. *)
From Coq Require Import ZArith List Bool Lia.
From Verif Require Import ModelWord ModelScalar ModelPrim ModelFp ModelDiv ModelMem CarryProof ScalarProof DivProof MemProof MemDiv.
Import ListNotations.
Local Open Scope Z_scope.

Lemma set_nth_length : forall l i v, length (set_nth l i v) = length l.
Proof. induction l as [|x l IH]; intros [|i] v; cbn [set_nth length]; auto. Qed.
Lemma set_nth_limb : forall l i v, (i < length l)%nat -> limb (set_nth l i v) i = v.
Proof. induction l as [|x l IH]; intros [|i] v H; cbn [length] in H; try lia; [reflexivity|]. cbn [set_nth]. unfold limb in *. cbn [nth]. apply IH. lia. Qed.
Lemma set_nth_twice : forall l i v w, set_nth (set_nth l i v) i w = set_nth l i w.
Proof. induction l as [|x l IH]; intros [|i] v w; cbn [set_nth]; f_equal; auto. Qed.
Lemma set_nth_same : forall l i, (i < length l)%nat -> set_nth l i (limb l i) = l.
Proof. induction l as [|x l IH]; intros [|i] H; cbn [length] in H; try lia; [reflexivity|]. cbn [set_nth]. unfold limb in *. cbn [nth]. f_equal. apply IH. lia. Qed.
Lemma subn_length : forall a b c, length a = length b -> length (fst (subn_loop a b c)) = length a.
Proof.
  induction a as [|x a IH]; intros b c L; destruct b as [|y b]; try discriminate; [reflexivity|]. cbn [subn_loop].
  match goal with |- context [subn_loop a b ?c1] => specialize (IH b c1 ltac:(cbn [length] in L; lia)); destruct (subn_loop a b c1) end. cbn [fst length] in *. lia.
Qed.
Lemma addn_length : forall a b c, length a = length b -> length (fst (addn_loop a b c)) = length a.
Proof.
  induction a as [|x a IH]; intros b c L; destruct b as [|y b]; try discriminate; [reflexivity|]. cbn [addn_loop].
  match goal with |- context [addn_loop a b ?c1] => specialize (IH b c1 ltac:(cbn [length] in L; lia)); destruct (addn_loop a b c1) end. cbn [fst length] in *. lia.
Qed.
Lemma sub1_length a c : length (fst (bn_sub1_low a c)) = length a.
Proof. rewrite <- (scan_sub1 a 0). apply scan_length. Qed.
Lemma splice_length (a w : list Z) k : (k + length w <= length a)%nat -> length (splice a k w) = length a.
Proof. intros H. unfold splice. rewrite !app_length, firstn_length, skipn_length. lia. Qed.

Lemma c_div_top_ok d bs tb ta : forall fuel a c a' q, length a = length bs -> (d < length c)%nat ->
  div_top fuel a bs (limb c d) = Some (a', q) ->
  c_div_top fuel (a ++ ta) (bs ++ tb) c (length a) (Z.of_nat d) = Some (a' ++ ta, set_nth c d q).
Proof.
  induction fuel as [|fuel IH]; intros a c a' q L Hd E; [discriminate E|]. cbn [div_top c_div_top] in *.
  rewrite c_dvcmp_ok by (rewrite app_length; lia). rewrite cmp_loop_app by lia. unfold dv_cmp in E.
  assert (STEP : div_top fuel (fst (bn_subn_low a bs)) bs ((limb c d + 1) mod W) = Some (a', q) ->
    (x <- rd c (Z.of_nat d) ;; c <- wr c (Z.of_nat d) ((x + 1) mod W) ;; ac <- c_subn (a ++ ta) 0 (bs ++ tb) (length a) ;; c_div_top fuel (fst ac) (bs ++ tb) c (length a) (Z.of_nat d)) = Some (a' ++ ta, set_nth c d q)).
  { intros E'. rewrite rd_limb, wr_set_nth, Nat2Z.id by lia. pose proof (c_subn_ok a ta bs tb 0 (length a) L ltac:(lia)) as S. change (Z.of_nat 0) with 0 in S. rewrite S. clear S. cbn [fst].
    rewrite win_all. unfold bn_subn_low in *. pose proof (subn_length a bs 0 L) as LL. rewrite splice_all by exact LL.
    rewrite <- LL. rewrite (IH _ _ a' q); [rewrite set_nth_twice; reflexivity|lia|rewrite set_nth_length; exact Hd|].
    rewrite set_nth_limb by exact Hd. exact E'. }
  destruct (cmp_loop (length a) a bs).
  - apply STEP, E.
  - injection E as <- <-. rewrite set_nth_same by exact Hd. reflexivity.
  - apply STEP, E.
Qed.
Lemma div_qhat_le t1 t2 : forall fuel q q', div_qhat fuel t1 t2 q = Some q' -> q' <= q.
Proof.
  induction fuel as [|fuel IH]; intros q q' E; [discriminate E|]. cbn [div_qhat] in E. destruct (bn_mul1_low t1 q). destruct (dv_cmp _ _).
  - injection E as <-. lia.
  - injection E as <-. lia.
  - apply IH in E. lia.
Qed.
Lemma dec_inc q : 0 <= q < W -> ((q + 1) mod W - 1) mod W = q.
Proof. intros H. rewrite Zminus_mod_idemp_l. replace (q + 1 - 1) with q by ring. apply Z.mod_small, H. Qed.
Lemma c_div_qhat_ok a ta b tb t k i : length b = S t -> i = (t + 1 + k)%nat -> (i < length a)%nat ->
  forall fuel q q' c t1 t2, 0 <= q < W -> (k < length c)%nat -> limb c k = (q + 1) mod W -> length t1 = 3%nat -> length t2 = 3%nat -> 0 <= q' ->
  div_qhat fuel [if Nat.eqb t 0 then 0 else limb b (t - 1); limb b t] [if Nat.ltb i 2 then 0 else limb a (i - 2); limb a (i - 1); limb a i] q = Some q' ->
  exists t1' t2', c_div_qhat fuel (a ++ ta) (b ++ tb) c t1 t2 (Z.of_nat i) (Z.of_nat t) = Some (set_nth c k q', t1', t2') /\ length t1' = 3%nat /\ length t2' = 3%nat.
Proof.
  intros Lb Ei La. induction fuel as [|fuel IH]; intros q q' c t1 t2 Hq Hc Ec L1 L2 Hq' E; [discriminate E|].
  destruct t1 as [|u0 [|u1 [|u2 [|]]]]; try discriminate L1. destruct t2 as [|v0 [|v1 [|v2 [|]]]]; try discriminate L2.
  cbn [div_qhat c_div_qhat] in *. replace (Z.of_nat i - Z.of_nat t - 1) with (Z.of_nat k) by lia.
  rewrite rd_limb, Nat2Z.id by lia. rewrite wr_set_nth, Nat2Z.id by lia. rewrite Ec, dec_inc by exact Hq.
  assert (X0 : (if Z.of_nat t - 1 <? 0 then Some 0 else rd (b ++ tb) (Z.of_nat t - 1)) = Some (if Nat.eqb t 0 then 0 else limb b (t - 1))).
  { destruct (Z.ltb_spec (Z.of_nat t - 1) 0); destruct (Nat.eqb_spec t 0); try lia; [reflexivity|]. rewrite rd_limb by (rewrite app_length; lia).
    replace (Z.to_nat (Z.of_nat t - 1)) with (t - 1)%nat by lia. rewrite limb_app by lia. reflexivity. }
  rewrite X0. clear X0. set (x0 := if Nat.eqb t 0 then 0 else limb b (t - 1)) in *.
  assert (X1 : rd (b ++ tb) (Z.of_nat t) = Some (limb b t)) by (rewrite rd_limb, Nat2Z.id, limb_app by (rewrite ?app_length; lia); reflexivity).
  rewrite X1. clear X1. set (x1 := limb b t) in *.
  change (wr [u0; u1; u2] 0 x0) with (Some [x0; u1; u2]). cbv iota beta. change (wr [x0; u1; u2] 1 x1) with (Some ([x0; x1] ++ [u2])). cbv iota beta.
  rewrite rd_limb, Nat2Z.id, set_nth_limb by (rewrite ?set_nth_length; lia). rewrite c_mul1_inplace_ok by reflexivity.
  pose proof (mul1_length q [x0; x1] 0) as LM. unfold bn_mul1_low in *. destruct (mul1_loop [x0; x1] q 0) as [l cy]. cbn [fst snd] in *.
  destruct l as [|l0 [|l1 [|]]]; try discriminate LM. change (wr ([l0; l1] ++ [u2]) 2 cy) with (Some [l0; l1; cy]). cbv iota beta.
  assert (Y0 : (if Z.of_nat i - 2 <? 0 then Some 0 else rd (a ++ ta) (Z.of_nat i - 2)) = Some (if Nat.ltb i 2 then 0 else limb a (i - 2))).
  { destruct (Z.ltb_spec (Z.of_nat i - 2) 0); destruct (Nat.ltb_spec i 2); try lia; [reflexivity|]. rewrite rd_limb by (rewrite app_length; lia).
    replace (Z.to_nat (Z.of_nat i - 2)) with (i - 2)%nat by lia. rewrite limb_app by lia. reflexivity. }
  rewrite Y0. clear Y0. set (y0 := if Nat.ltb i 2 then 0 else limb a (i - 2)) in *.
  assert (Y1 : (if Z.of_nat i - 1 <? 0 then Some 0 else rd (a ++ ta) (Z.of_nat i - 1)) = Some (limb a (i - 1))).
  { destruct (Z.ltb_spec (Z.of_nat i - 1) 0); [lia|]. rewrite rd_limb by (rewrite app_length; lia).
    replace (Z.to_nat (Z.of_nat i - 1)) with (i - 1)%nat by lia. rewrite limb_app by lia. reflexivity. }
  rewrite Y1. clear Y1. set (y1 := limb a (i - 1)) in *.
  assert (Y2 : rd (a ++ ta) (Z.of_nat i) = Some (limb a i)) by (rewrite rd_limb, Nat2Z.id, limb_app by (rewrite ?app_length; lia); reflexivity).
  rewrite Y2. clear Y2. set (y2 := limb a i) in *.
  change (wr [v0; v1; v2] 0 y0) with (Some [y0; v1; v2]). cbv iota beta. change (wr [y0; v1; v2] 1 y1) with (Some [y0; y1; v2]). cbv iota beta.
  change (wr [y0; y1; v2] 2 y2) with (Some [y0; y1; y2]). cbv iota beta.
  rewrite c_dvcmp_ok by (cbn [length]; lia). unfold dv_cmp in E. cbn [app length] in E. destruct (cmp_loop 3 [l0; l1; cy] [y0; y1; y2]).
  - injection E as <-. exists [l0; l1; cy], [y0; y1; y2]. split; [reflexivity|split; reflexivity].
  - injection E as <-. exists [l0; l1; cy], [y0; y1; y2]. split; [reflexivity|split; reflexivity].
  - pose proof (div_qhat_le _ _ _ _ _ E) as LE.
    destruct (IH (q - 1) q' (set_nth c k q) [l0; l1; cy] [y0; y1; y2]) as (t1' & t2' & -> & R1 & R2); auto; try lia.
    + rewrite set_nth_length. exact Hc.
    + rewrite set_nth_limb by exact Hc. replace (q - 1 + 1) with q by ring. symmetry. apply Z.mod_small, Hq.
    + exists t1', t2'. rewrite set_nth_twice. split; [reflexivity|split; assumption].
Qed.
(** the first estimate of a digit is a word *)
Lemma q0_word a b t k i : words a -> words b -> length b = S t -> 4611686018427387904 <= limb b t ->
  i = (t + 1 + k)%nat -> val a < val b * W ^ Z.of_nat (S k) ->
  0 <= (if limb a i =? limb b t then RLC_MASK 64 else (limb a i * W + limb a (i - 1)) / limb b t) < W.
Proof.
  intros Ha Hb Lb Hn Hi HR. pose proof W_pos as W0. pose proof (val_bound b Hb) as [B0 B1]. rewrite Lb in B1.
  pose proof (val_nonneg a Ha) as A0. pose proof (Wpow_pos t) as T0. pose proof (Wpow_pos (S k)) as K0. pose proof (Wpow_pos i) as I0.
  assert (EI : W ^ Z.of_nat i = W ^ Z.of_nat t * W ^ Z.of_nat (S k)) by (rewrite <- Z.pow_add_r by lia; f_equal; lia).
  assert (ES : W ^ Z.of_nat (S i) = W ^ Z.of_nat (S t) * W ^ Z.of_nat (S k)) by (rewrite <- Z.pow_add_r by lia; f_equal; lia).
  assert (RA : val a < W ^ Z.of_nat (S i)).
  { rewrite ES. eapply Z.lt_le_trans; [exact HR|]. apply Z.mul_le_mono_nonneg_r; lia. }
  assert (LE : limb a i <= limb b t).
  { rewrite (limb_top a i Ha RA), (limb_top b t Hb B1). rewrite EI. rewrite (Z.mul_comm (W ^ Z.of_nat t)), <- Z.div_div by lia.
    apply Z.div_le_mono; [exact T0|]. apply Z.lt_succ_r. apply Z.lt_le_trans with (val b + 1); [|lia].
    assert (val a / W ^ Z.of_nat (S k) < val b) by (apply Z.div_lt_upper_bound; lia). lia. }
  destruct (Z.eqb_spec (limb a i) (limb b t)) as [E|NE].
  - split; [discriminate|reflexivity].
  - assert (H1 : word (limb a i)) by (apply limb_word; exact Ha). assert (H2 : word (limb a (i - 1))) by (apply limb_word; exact Ha). unfold word in *.
    split; [apply Z.div_pos; [|lia]; apply Z.add_nonneg_nonneg; [apply Z.mul_nonneg_nonneg|]; lia|].
    apply Z.div_lt_upper_bound; [lia|]. assert ((limb a i + 1) * W <= limb b t * W) by (apply Z.mul_le_mono_nonneg_r; lia). clear - H H2. lia.
Qed.
Lemma c_div_step_ok cap a ta b tb c d t1 t2 t k i a' q : words a -> words b -> length b = S t -> 4611686018427387904 <= limb b t ->
  i = (t + 1 + k)%nat -> (i < length a)%nat -> (S (length b) <= cap)%nat -> val a < val b * W ^ Z.of_nat (S k) ->
  (k < length c)%nat -> length d = cap -> length t1 = 3%nat -> length t2 = 3%nat -> div_step cap i a b = Ok (a', q) ->
  exists d' t1' t2', c_div_step (length a) (length b) (b ++ tb) (Z.of_nat i) (mkD (a ++ ta) c d t1 t2) = Some (mkD (a' ++ ta) (set_nth c k q) d' t1' t2') /\
    length d' = cap /\ length t1' = 3%nat /\ length t2' = 3%nat.
Proof.
  intros Ha Hb Lb Hn Hi La Hcap HR Hc Ld L1 L2 E.
  assert (Hq : word q).
  { destruct (div_step_ok cap a b t k i Ha Hb Lb Hn Hi La Hcap HR) as (a2 & q2 & E2 & _ & _ & Hq & _). rewrite E2 in E. injection E as _ <-. exact Hq. }
  pose proof (q0_word a b t k i Ha Hb Lb Hn Hi HR) as Q0.
  unfold c_div_step. cbn [D_a D_c D_d D_t1 D_t2]. cbv zeta. rewrite Lb. replace (Z.of_nat (S t) - 1) with (Z.of_nat t) by lia.
  destruct (Z.ltb_spec (Z.of_nat (length a)) (Z.of_nat i)) as [|_]; [lia|].
  replace (Z.of_nat i - Z.of_nat t - 1) with (Z.of_nat k) by lia.
  replace (rd (a ++ ta) (Z.of_nat i)) with (Some (limb a i)) by (rewrite rd_limb, Nat2Z.id, limb_app by (rewrite ?app_length; lia); reflexivity).
  replace (rd (b ++ tb) (Z.of_nat t)) with (Some (limb b t)) by (rewrite rd_limb, Nat2Z.id, limb_app by (rewrite ?app_length; lia); reflexivity).
  replace (rd (a ++ ta) (Z.of_nat i - 1)) with (Some (limb a (i - 1))).
  2:{ replace (Z.of_nat i - 1) with (Z.of_nat (i - 1)) by lia. rewrite rd_limb, Nat2Z.id, limb_app by (rewrite ?app_length; lia). reflexivity. }
  assert (UD : udiv (limb a i * W + limb a (i - 1)) (limb b t) = Some ((limb a i * W + limb a (i - 1)) / limb b t)) by (unfold udiv; destruct (Z.eqb_spec (limb b t) 0); [lia|reflexivity]). rewrite UD. clear UD.
  assert (IFQ : (if limb a i =? limb b t then Some (RLC_MASK 64) else Some ((limb a i * W + limb a (i - 1)) / limb b t))
     = Some (if limb a i =? limb b t then RLC_MASK 64 else (limb a i * W + limb a (i - 1)) / limb b t)) by (destruct (_ =? _); reflexivity).
  rewrite IFQ. clear IFQ. unfold div_step in E. rewrite Lb in E. replace (S t - 1)%nat with t in E by lia.
  set (q0 := if limb a i =? limb b t then RLC_MASK 64 else (limb a i * W + limb a (i - 1)) / limb b t) in *. cbv zeta in E.
  rewrite wr_set_nth, Nat2Z.id by lia.
  destruct (div_qhat 8 _ _ q0) as [q1|] eqn:EQ; [|discriminate E].
  assert (Hq1 : 0 <= q1).
  { destruct (digit_estimate a b t k i Ha Hb Lb Hn Hi HR) as (q2 & E2 & Hq2 & _). fold q0 in E2. rewrite EQ in E2. injection E2 as <-. apply Hq2. }
  pose proof (div_qhat_le _ _ _ _ _ EQ) as Q1.
  destruct (c_div_qhat_ok a ta b tb t k i Lb Hi La 8 q0 q1 (set_nth c k ((q0 + 1) mod W)) t1 t2 Q0 ltac:(rewrite set_nth_length; exact Hc) ltac:(apply set_nth_limb; exact Hc) L1 L2 Hq1 EQ)
    as (t1' & t2' & -> & R1 & R2). cbn [fst snd]. rewrite set_nth_twice.
  rewrite rd_limb, Nat2Z.id, set_nth_limb by (rewrite ?set_nth_length; lia).
  rewrite c_mul1_ok by lia. cbn [fst snd]. pose proof (mul1_length q1 b 0) as LM. unfold bn_mul1_low in *.
  destruct (mul1_loop b q1 0) as [d0 cy]. cbn [fst snd] in *.
  assert (SK : skipn (S t) d = match skipn (S t) d with [] => [] | x :: r => x :: r end) by (destruct (skipn _ _); reflexivity).
  assert (DD : exists td, (if cy =? 0 then Some (d0 ++ skipn (S t) d) else wr (d0 ++ skipn (S t) d) (Z.of_nat (S t)) cy) = Some ((if cy =? 0 then d0 else d0 ++ [cy]) ++ td)
     /\ (length (if Z.eqb cy 0 then d0 else d0 ++ [cy]) + length td)%nat = cap).
  { destruct (cy =? 0).
    - exists (skipn (S t) d). split; [reflexivity|]. rewrite skipn_length. lia.
    - destruct (skipn (S t) d) as [|x r] eqn:ES; [apply (f_equal (@length Z)) in ES; rewrite skipn_length in ES; cbn [length] in ES; lia|].
      exists r. rewrite wr_mid by lia. rewrite <- app_assoc. split; [reflexivity|]. apply (f_equal (@length Z)) in ES. rewrite skipn_length in ES. rewrite app_length. cbn [length] in *. lia. }
  clear SK. destruct DD as (td & -> & LD).
  set (d1 := if cy =? 0 then d0 else d0 ++ [cy]) in *.
  assert (SD : (if cy =? 0 then S t else S (S t)) = length d1) by (unfold d1; destruct (cy =? 0); [|rewrite app_length; cbn [length]]; lia).
  rewrite SD. clear SD.
  replace (i - t - 1)%nat with k in E by lia.
  destruct (Nat.leb_spec (length d1) cap) as [D1|]; [|discriminate E]. destruct (Nat.leb_spec (k + length d1) (length a)) as [D2|]; [|discriminate E]. cbn [andb negb] in E.
  rewrite c_subn_ok by (reflexivity || exact D2). cbn [fst snd].
  assert (LS : length (fst (bn_subn_low (win a k (length d1)) d1)) = length d1) by (unfold bn_subn_low; rewrite subn_length; rewrite win_length; auto).
  destruct (bn_subn_low (win a k (length d1)) d1) as [w cs]. cbn [fst snd] in *.
  assert (LA2 : length (splice a k w) = length a) by (apply splice_length; lia). set (a2 := splice a k w) in *.
  replace (Z.of_nat (length d1) + Z.of_nat k) with (Z.of_nat (length d1 + k)) by lia.
  assert (S1 : (if 0 <? Z.of_nat (length a) - Z.of_nat (length d1 + k) then c_sub1 (a2 ++ ta) (Z.of_nat (length d1 + k)) cs (Z.to_nat (Z.of_nat (length a) - Z.of_nat (length d1 + k))) else Some (a2 ++ ta, cs))
    = Some (let (a3, c3) := if Nat.ltb (length d1 + k) (length a) then let (w, carry) := bn_sub1_low (win a2 (length d1 + k) (length a - (length d1 + k))) cs in (splice a2 (length d1 + k) w, carry) else (a2, cs) in (a3 ++ ta, c3))
    /\ length (fst (if Nat.ltb (length d1 + k) (length a) then let (w, carry) := bn_sub1_low (win a2 (length d1 + k) (length a - (length d1 + k))) cs in (splice a2 (length d1 + k) w, carry) else (a2, cs))) = length a).
  { destruct (Z.ltb_spec 0 (Z.of_nat (length a) - Z.of_nat (length d1 + k))); destruct (Nat.ltb_spec (length d1 + k) (length a)); try lia; [|split; [reflexivity|exact LA2]].
    replace (Z.to_nat (Z.of_nat (length a) - Z.of_nat (length d1 + k))) with (length a - (length d1 + k))%nat by lia. rewrite c_sub1_ok by lia.
    pose proof (sub1_length (win a2 (length d1 + k) (length a - (length d1 + k))) cs) as L3. rewrite win_length in L3 by lia. destruct (bn_sub1_low _ _) as [w3 c3]. cbn [fst snd] in *.
    split; [reflexivity|]. rewrite splice_length; lia. }
  destruct S1 as [-> L3]. destruct (if Nat.ltb (length d1 + k) (length a) then _ else _) as [a3 c3]. cbn [fst snd] in *.
  destruct (c3 =? 0).
  - injection E as <- <-. exists (d1 ++ td), t1', t2'. split; [reflexivity|]. rewrite app_length. repeat split; assumption.
  - rewrite c_addn_ok by lia. cbn [fst snd].
    assert (LS2 : length (fst (bn_addn_low (win a3 k (S t)) b)) = S t) by (unfold bn_addn_low; rewrite addn_length; rewrite win_length; lia).
    destruct (bn_addn_low (win a3 k (S t)) b) as [w4 c4]. cbn [fst snd] in *.
    assert (LA4 : length (splice a3 k w4) = length a) by (rewrite splice_length; lia). set (a4 := splice a3 k w4) in *.
    replace (Z.of_nat (S t) + Z.of_nat k) with (Z.of_nat (S t + k)) by lia.
    replace (Z.to_nat (Z.of_nat (length a) - Z.of_nat (S t + k))) with (length a - (S t + k))%nat by lia.
    rewrite c_add1_ok by lia. destruct (bn_add1_low _ c4) as [w5 c5]. cbn [fst snd] in *. injection E as <- <-.
    rewrite wr_set_nth, Nat2Z.id, set_nth_twice by (rewrite set_nth_length; lia).
    rewrite Z.mod_small by exact Hq. exists (d1 ++ td), t1', t2'. split; [reflexivity|]. rewrite app_length. repeat split; assumption.
Qed.
Lemma c_div_loop_ok cap b tb ta t : words b -> length b = S t -> 4611686018427387904 <= limb b t -> (S (length b) <= cap)%nat ->
  forall m a c d t1 t2, words a -> (S (t + m) <= length a)%nat -> (m <= length c)%nat -> val a < val b * W ^ Z.of_nat m ->
  length d = cap -> length t1 = 3%nat -> length t2 = 3%nat ->
  exists a' c' d' t1' t2', div_loop cap m a b c = Ok (a', c') /\ length a' = length a /\ length d' = cap /\ length c' = length c /\
    c_div_loop m (length a) (length b) (b ++ tb) (mkD (a ++ ta) c d t1 t2) = Some (mkD (a' ++ ta) c' d' t1' t2').
Proof.
  intros Hb Lb Hn Hcap. induction m as [|m IH]; intros a c d t1 t2 Ha La Lc HR Ld L1 L2.
  - exists a, c, d, t1, t2. repeat split; auto.
  - cbn [div_loop c_div_loop]. replace (length b - 1 + S m)%nat with (t + 1 + m)%nat by lia.
    destruct (div_step_ok cap a b t m (t + 1 + m) Ha Hb Lb Hn eq_refl ltac:(lia) Hcap HR) as (a1 & q & E1 & H1 & LA1 & Hq & V1 & B1).
    destruct (c_div_step_ok cap a ta b tb c d t1 t2 t m (t + 1 + m) a1 q Ha Hb Lb Hn eq_refl ltac:(lia) Hcap HR ltac:(lia) Ld L1 L2 E1) as (d' & t1' & t2' & E2 & R0 & R1 & R2).
    rewrite E1. replace (Z.of_nat (length b) - 1 + Z.of_nat (S m)) with (Z.of_nat (t + 1 + m)) by lia. rewrite E2.
    destruct (IH a1 (set_nth c m q) d' t1' t2' H1 ltac:(lia) ltac:(rewrite set_nth_length; lia) B1 R0 R1 R2) as (a2 & c2 & d2 & u1 & u2 & F1 & F2 & F3 & F4 & F5).
    exists a2, c2, d2, u1, u2. rewrite LA1 in F5. rewrite set_nth_length in F4. repeat split; auto. lia.
Qed.
Lemma c_div_core cap a b ta tb t s d t1 t2 : 0 <= s < 64 -> words a -> words b -> length b = S t -> 4611686018427387904 <= limb b t -> (S t <= length a)%nat ->
  (S (length b) <= cap)%nat -> (length a <= cap)%nat -> (length b + length tb = cap)%nat -> length d = cap -> length t1 = 3%nat -> length t2 = 3%nat ->
  exists q r rest, match div_top 8 a (dv_lshd b (length a - 1 - t)) (limb (repeat 0 cap) (length a - 1 - t)) with
      | None => Throw
      | Some (a, q) =>
          match div_loop cap (length a - 1 - t) a (dv_rshd (dv_lshd b (length a - 1 - t)) (length a - 1 - t)) (set_nth (repeat 0 cap) (length a - 1 - t) q) with
          | Ok (a, c) => Ok (c, fst (bn_rshb_low (firstn (length b) a) s))
          | Throw => Throw
          | OutOfBounds => OutOfBounds
          end
      end = Ok (q, r) /\
    (let m := Z.of_nat (length a) - 1 - (Z.of_nat (length b) - 1) in
     b0 <- c_lshd (b ++ tb) (Z.of_nat (length b) + m) m ;;
     ac <- c_div_top 8 (a ++ ta) b0 (repeat 0 cap) (length a) m ;;
     b0 <- c_rshd b0 (Z.of_nat (length b) + m) m ;;
     s0 <- c_div_loop (Z.to_nat m) (length a) (length b) b0 (mkD (fst ac) (snd ac) d t1 t2) ;;
     dc <- c_rshb (D_d s0) (D_a s0) (length b) s ;;
     Some (D_c s0, fst dc)) = Some (q, r ++ rest) /\ length r = length b /\ length q = cap.
Proof.
  intros Hs Ha Hb Lb Hn La Hcap Lcap Ltb Ld L1 L2. set (m := (length a - 1 - t)%nat).
  pose proof (val_bound b Hb) as [B0 B1]. rewrite Lb in B1. pose proof (Wpow_pos m) as M0. pose proof (Wpow_pos t) as T0.
  pose proof (limb_top b t Hb B1) as BT.
  assert (TB : W ^ Z.of_nat t * limb b t <= val b) by (rewrite BT; apply Z.mul_div_le; auto).
  assert (Hbs : words (dv_lshd b m)) by (unfold dv_lshd; apply words_app; split; [apply words_repeat0|auto]).
  assert (Vbs : val (dv_lshd b m) = val b * W ^ Z.of_nat m) by (unfold dv_lshd; rewrite val_app, val_repeat0, repeat_length; ring).
  assert (Lbs : length a = length (dv_lshd b m)) by (unfold dv_lshd; rewrite app_length, repeat_length; lia).
  assert (C0 : limb (repeat 0 cap) m = 0) by apply limb_repeat0.
  destruct (div_top_ok (dv_lshd b m) Hbs 8 a 0 Ha Lbs) as (a1 & q1 & E1 & H1 & LA1 & V1 & Q1 & _).
  { pose proof (val_bound a Ha) as [_ A1]. rewrite Vbs. eapply Z.lt_le_trans; [exact A1|].
    replace (length a) with (S (t + m))%nat by (clear - La m; lia). rewrite pow_S, Nat2Z.inj_add, Z.pow_add_r by apply Nat2Z.is_nonneg. clear - TB M0 T0 Hn.
    assert (W * (W ^ Z.of_nat t * W ^ Z.of_nat m) <= 8 * (W ^ Z.of_nat t * limb b t * W ^ Z.of_nat m)); [|
      assert (W ^ Z.of_nat t * limb b t * W ^ Z.of_nat m <= val b * W ^ Z.of_nat m) by (apply Z.mul_le_mono_nonneg_r; lia);
      change (Z.of_nat 8) with 8; lia].
    assert (0 < W ^ Z.of_nat t * W ^ Z.of_nat m) by (apply Z.mul_pos_pos; auto).
    replace (8 * (W ^ Z.of_nat t * limb b t * W ^ Z.of_nat m)) with (8 * limb b t * (W ^ Z.of_nat t * W ^ Z.of_nat m)) by ring.
    apply Z.mul_le_mono_nonneg_r; [lia|]. assert (W = 4 * 4611686018427387904) by reflexivity. clear - Hn H0. lia. }
  { lia. }
  { discriminate. }
  rewrite C0, E1. rewrite LA1. fold m.
  rewrite (dv_shift_back b m). rewrite Vbs in V1.
  assert (EM : Z.of_nat (length a) - 1 - (Z.of_nat (length b) - 1) = Z.of_nat m) by (unfold m; clear - Lb La; lia). rewrite EM. cbv zeta.
  rewrite c_lshd_ok by lia.
  rewrite (c_div_top_ok m (dv_lshd b m) (skipn m tb) ta 8 a (repeat 0 cap) a1 q1 Lbs ltac:(rewrite repeat_length; lia)) by (rewrite C0; exact E1).
  unfold dv_lshd at 1. rewrite <- app_assoc. destruct (c_rshd_ok b (repeat 0 m) (skipn m tb) m (repeat_length _ _)) as (Y & LY & ->). cbn [fst snd]. rewrite Nat2Z.id.
  destruct (c_div_loop_ok cap b (Y ++ skipn m tb) ta t Hb Lb Hn Hcap m a1 (set_nth (repeat 0 cap) m q1) d t1 t2 H1 ltac:(lia) ltac:(rewrite set_nth_length, repeat_length; lia) V1 Ld L1 L2)
    as (a2 & c2 & d2 & u1 & u2 & F1 & F2 & F3 & F4 & F5).
  rewrite LA1 in F5. rewrite F1, F5. cbn [D_a D_c D_d]. rewrite set_nth_length, repeat_length in F4.
  destruct (c_rshb_ok d2 (a2 ++ ta) (length b) s Hs) as [cy E]; [rewrite app_length; clear - F2 LA1 La Lb; lia|clear - F3 Hcap; lia|]. rewrite E. cbn [fst].
  rewrite firstn_app. replace (length b - length a2)%nat with 0%nat by (clear - F2 LA1 La Lb; lia). cbn [firstn]. rewrite app_nil_r.
  exists c2, (fst (bn_rshb_low (firstn (length b) a2) s)), (skipn (length b) d2). split; [reflexivity|]. split; [reflexivity|]. split; [|exact F4].
  assert (RL : forall l, length (fst (bn_rshb_low l s)) = length l) by (induction l as [|x l IH]; [reflexivity|]; cbn [bn_rshb_low]; destruct (bn_rshb_low l s); cbn [fst length] in *; lia).
  rewrite RL, firstn_length. clear - F2 LA1 La Lb. lia.
Qed.
Lemma c_append_ok a ta cy : ta <> [] -> exists ta', c_append (a ++ ta) (length a) cy = Some ((if cy =? 0 then a else a ++ [cy]) ++ ta', length (if cy =? 0 then a else a ++ [cy]))
  /\ (length (if Z.eqb cy 0 then a else a ++ [cy]) + length ta' = length a + length ta)%nat.
Proof.
  intros N. unfold c_append. destruct (cy =? 0); [exists ta; split; reflexivity|]. destruct ta as [|x ta]; [exfalso; apply N; reflexivity|].
  rewrite wr_mid by reflexivity. exists ta. rewrite <- app_assoc, app_length. cbn [length app]. split; [do 2 f_equal; lia|lia].
Qed.
Lemma wr_range_pre {A} (l w : list A) : (length w <= length l)%nat -> wr_range l 0 w = Some (w ++ skipn (length w) l).
Proof.
  intros H. rewrite <- (firstn_skipn (length w) l) at 1. apply (wr_range_mid []); [reflexivity|]. rewrite firstn_length. lia.
Qed.
Lemma skipn_repeat {A} (x : A) : forall n m, skipn n (repeat x m) = repeat x (m - n).
Proof. induction n as [|n IH]; intros m; [rewrite Nat.sub_0_r; reflexivity|]. destruct m; [reflexivity|]. cbn [repeat skipn Nat.sub]. apply IH. Qed.
Lemma c_divn_safe_ok c d a b t1 t2 : words a -> words b -> (1 <= length b <= length a)%nat -> 0 < limb b (length b - 1) < 9223372036854775808 ->
  length c = length a -> length d = length b -> length t1 = 3%nat -> length t2 = 3%nat ->
  exists q r, bn_divn_safe a b = Ok (q, r) /\ c_divn_safe c d a b t1 t2 = Some (q, r).
Proof.
  intros Ha Hb L Ht Lc Ld L1 L2. set (top := limb b (length b - 1)) in *. set (t := (length b - 1)%nat) in *.
  assert (Lb : length b = S t) by lia.
  pose proof (val_bound b Hb) as [B0 B1]. rewrite Lb in B1. pose proof (limb_top b t Hb B1) as BT. fold top in BT.
  pose proof (Z.log2_spec top ltac:(lia)) as [G1 G2]. pose proof (Z.log2_nonneg top) as G0.
  assert (G3 : Z.log2 top < 63) by (apply Z.log2_lt_pow2; [lia|]; apply Ht).
  pose proof (Wpow_pos t) as T0.
  assert (LO : W ^ Z.of_nat t * top <= val b) by (rewrite BT; apply Z.mul_div_le; auto).
  assert (HI : val b < W ^ Z.of_nat t * (top + 1)) by (rewrite BT; pose proof (Z.mul_succ_div_gt (val b) (W ^ Z.of_nat t) T0); lia).
  unfold bn_divn_safe, c_divn_safe, bn_divn_low, c_divn_low. fold t top. cbv zeta.
  rewrite (rd_range_all a) by reflexivity. rewrite wr_range_pre by (rewrite repeat_length; lia). rewrite (rd_range_all b) by reflexivity. rewrite wr_range_pre by (rewrite repeat_length; lia).
  rewrite !skipn_repeat. replace (length a + 2 - length a)%nat with 2%nat by lia. set (tb := repeat 0 (length a + 2 - length b)).
  assert (Ltb : (length b + length tb = length a + 2)%nat) by (unfold tb; rewrite repeat_length; lia).
  replace (rd (b ++ tb) (Z.of_nat (length b) - 1)) with (Some top).
  2:{ replace (Z.of_nat (length b) - 1) with (Z.of_nat t) by lia. rewrite rd_limb, Nat2Z.id, limb_app by (rewrite ?app_length; lia). reflexivity. }
  unfold clz64. destruct (Z.eqb_spec top 0) as [|_]; [lia|]. unfold countl_zero.
  replace (64 - (63 - Z.log2 top)) with (Z.log2 top + 1) by ring. rewrite (Z.mod_small (Z.log2 top + 1)) by lia.
  assert (FIN : forall a1 b1 s ta tb1, words a1 -> words b1 -> length b1 = S t -> 4611686018427387904 <= limb b1 t -> (S t <= length a1)%nat -> (length a1 <= S (length a))%nat ->
     (length b1 + length tb1 = length a + 2)%nat -> 0 <= s < 64 ->
     exists q r, match
        (let n := (length a1 - 1)%nat in let t := (length b1 - 1)%nat in
         if Nat.ltb n t then OutOfBounds else
         match div_top 8 a1 (dv_lshd b1 (n - t)) (limb (repeat 0 (length a + 2)) (n - t)) with
         | None => Throw
         | Some (a2, q) => match div_loop (length a + 2) (n - t) a2 (dv_rshd (dv_lshd b1 (n - t)) (n - t)) (set_nth (repeat 0 (length a + 2)) (n - t) q) with
           | Ok (a3, c) => Ok (c, fst (bn_rshb_low (firstn (length b1) a3) s)) | Throw => Throw | OutOfBounds => OutOfBounds end end)
       with Ok (q, r) => Ok (firstn (length a) q, firstn (length b) r) | Throw => Throw | OutOfBounds => OutOfBounds end = Ok (q, r) /\
       (qr <- (let m := Z.of_nat (length a1) - 1 - (Z.of_nat (length b1) - 1) in
           b0 <- c_lshd (b1 ++ tb1) (Z.of_nat (length b1) + m) m ;;
           ac <- c_div_top 8 (a1 ++ ta) b0 (repeat 0 (length a + 2)) (length a1) m ;;
           b0 <- c_rshd b0 (Z.of_nat (length b1) + m) m ;;
           s0 <- c_div_loop (Z.to_nat m) (length a1) (length b1) b0 (mkD (fst ac) (snd ac) (repeat 0 (length a + 2)) t1 t2) ;;
           dc <- c_rshb (D_d s0) (D_a s0) (length b1) s ;;
           Some (D_c s0, fst dc)) ;;
        src <- rd_range (fst qr) 0 (Z.of_nat (length a)) ;; c <- wr_range c 0 src ;;
        src <- rd_range (snd qr) 0 (Z.of_nat (length b)) ;; d <- wr_range d 0 src ;;
        Some (c, d)) = Some (q, r)).
  { intros a1 b1 s ta tb1 H1 H2 Lb1 N2 La1 La2 Ltb1 Hs.
    destruct (c_div_core (length a + 2) a1 b1 ta tb1 t s (repeat 0 (length a + 2)) t1 t2 Hs H1 H2 Lb1 N2 La1 ltac:(lia) ltac:(lia) Ltb1 (repeat_length _ _) L1 L2) as (q & r & rest & E1 & E2 & Lr & Lq).
    cbv zeta in E2 |- *. rewrite E2. replace (length b1 - 1)%nat with t by lia.
    assert (FE : forall a2 q2, div_top 8 a1 (dv_lshd b1 (length a1 - 1 - t)) (limb (repeat 0 (length a + 2)) (length a1 - 1 - t)) = Some (a2, q2) -> length a2 = length a1) by (apply FE_length; [exact H1| |]; [unfold dv_lshd; apply words_app; split; [apply words_repeat0|auto]|unfold dv_lshd; rewrite app_length, repeat_length; clear - La1 Lb1; lia]).
    destruct (Nat.ltb_spec (length a1 - 1) t); [lia|].
    destruct (div_top 8 a1 _ _) as [[a2 q2]|]; [|discriminate E1]. specialize (FE a2 q2 eq_refl). rewrite FE in E1. rewrite E1. cbn [fst snd].
    exists (firstn (length a) q), (firstn (length b) r). split; [reflexivity|].
    replace (rd_range q 0 (Z.of_nat (length a))) with (Some (firstn (length a) q)).
    2:{ symmetry. rewrite <- (firstn_skipn (length a) q) at 1. apply (rd_range_mid []); [reflexivity|]. rewrite firstn_length. lia. }
    rewrite wr_range_pre by (rewrite firstn_length; lia). rewrite (skipn_all2 c) by (rewrite firstn_length; lia). rewrite app_nil_r.
    replace (rd_range (r ++ rest) 0 (Z.of_nat (length b))) with (Some r) by (symmetry; apply (rd_range_mid []); [reflexivity|]; lia).
    rewrite wr_range_pre by lia. rewrite (skipn_all2 d) by lia. rewrite app_nil_r, (firstn_all2 r) by lia. reflexivity. }
  destruct (Z.ltb_spec (Z.log2 top + 1) 63) as [LT|GE].
  - set (s := 63 - (Z.log2 top + 1)).
    assert (Hs : 0 < s < 64) by (unfold s; lia).
    assert (P : 0 < 2 ^ s) by (apply Z.pow_pos_nonneg; lia).
    assert (PP : 2 ^ Z.log2 top * 2 ^ s = 4611686018427387904).
    { rewrite <- Z.pow_add_r by lia. unfold s. replace (Z.log2 top + (63 - (Z.log2 top + 1))) with 62 by ring. reflexivity. }
    rewrite Z.pow_succ_r in G2 by auto.
    rewrite !c_lshb_ok by exact Hs. cbn [fst snd]. unfold bn_lshb_low.
    destruct (lshb_loop_ok s Hs a 0 Ha ltac:(split; [lia|auto])) as (a1 & ca & -> & Ha1 & La1 & Hca & Va1).
    destruct (lshb_loop_ok s Hs b 0 Hb ltac:(split; [lia|auto])) as (b1 & cb & -> & Hb1 & Lb1 & Hcb & Vb1).
    rewrite Z.add_0_r in Va1, Vb1. cbn [fst snd].
    assert (UB : val b * 2 ^ s < W ^ Z.of_nat t * 9223372036854775808).
    { eapply Z.lt_le_trans; [apply Z.mul_lt_mono_pos_r; [exact P|exact HI]|]. rewrite <- Z.mul_assoc. apply Z.mul_le_mono_nonneg_l; [lia|].
      replace 9223372036854775808 with (2 * 2 ^ Z.log2 top * 2 ^ s) by (clear - PP; lia). apply Z.mul_le_mono_nonneg_r; lia. }
    assert (LB : W ^ Z.of_nat t * 4611686018427387904 <= val b * 2 ^ s).
    { rewrite <- PP. eapply Z.le_trans; [|apply Z.mul_le_mono_nonneg_r; [lia|exact LO]]. rewrite <- Z.mul_assoc. apply Z.mul_le_mono_nonneg_l; [lia|].
      apply Z.mul_le_mono_nonneg_r; lia. }
    pose proof (val_bound b1 Hb1) as [B10 B11]. rewrite Lb1 in B11. rewrite Lb in B11, Vb1.
    assert (WT : W ^ Z.of_nat (S t) = W ^ Z.of_nat t * W) by (rewrite pow_S; ring).
    assert (cb = 0).
    { destruct (Z.eq_dec cb 0); [auto|exfalso]. assert (W ^ Z.of_nat (S t) * 1 <= W ^ Z.of_nat (S t) * cb) by (apply Z.mul_le_mono_nonneg_l; lia).
      assert (W ^ Z.of_nat t * 9223372036854775808 <= W ^ Z.of_nat t * W) by (apply Z.mul_le_mono_nonneg_l; [lia|discriminate]). lia. }
    subst cb. rewrite Z.mul_0_r, Z.add_0_r in Vb1.
    assert (TOP : 4611686018427387904 <= limb b1 t).
    { rewrite (limb_top b1 t Hb1 B11). apply Z.div_le_lower_bound; [auto|]. lia. }
    replace (c_append (a1 ++ repeat 0 2) (length a) ca) with (c_append (a1 ++ repeat 0 2) (length a1) ca) by (rewrite La1; reflexivity). destruct (c_append_ok a1 (repeat 0 2) ca ltac:(discriminate)) as (ta' & -> & Lta).
    replace (c_append (b1 ++ tb) (length b) 0) with (c_append (b1 ++ tb) (length b1) 0) by (rewrite Lb1; reflexivity). destruct (c_append_ok b1 tb 0) as (tb' & -> & Ltb'); [intros E; rewrite E in Ltb; cbn [length] in Ltb; lia|]. cbn [Z.eqb] in Ltb' |- *.
    unfold append at 2. cbn [Z.eqb]. unfold append. change (length (repeat 0 2)) with 2%nat in Lta.
    destruct (Z.eqb_spec ca 0) as [->|Nc].
    + apply FIN; auto; lia.
    + destruct (Nat.ltb_spec (length a1) (length a + 2)); [|lia].
      apply FIN; auto.
      * apply words_app. split; [auto|]. constructor; [|constructor]. split; [lia|]. eapply Z.lt_trans; [apply Hca|]. apply (Z.pow_lt_mono_r 2 s 64); lia.
      * lia.
      * rewrite app_length. cbn [length]. lia.
      * rewrite app_length. cbn [length]. lia.
      * lia.
      * lia.
  - unfold append. cbn [Z.eqb]. apply FIN; auto; try lia.
    assert (E62 : Z.log2 top = 62) by lia. rewrite E62 in G1. exact G1.
Qed.
