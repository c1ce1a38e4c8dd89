(** __multiply and __mul_ex of arithmetic.s store the Montgomery product of ModelPrim. *)
From Coq Require Import ZArith List Lia.
From Verif Require Import ModelWord ModelPrim X86 AsmCode AsmTac AsmProof1.
Import ListNotations.
Local Open Scope Z_scope.

Lemma word_prod : forall a b, word a -> word b -> 0 <= a * b <= (W - 1) * (W - 1).
Proof. unfold word, W. intros. split; [apply Z.mul_nonneg_nonneg; lia|apply Z.mul_le_mono_nonneg; lia]. Qed.

(** One step: execute, resolve memory reads from the hypotheses, name the results. *)
Ltac xread :=
  repeat match goal with
  | |- context [upd ?m ?a ?v ?b] =>
      first [ rewrite (upd_other m a v b) by (match goal with O : _ \/ _ |- _ => clear -O; lia end)
            | rewrite (upd_other m a v b) by (clear; lia)
            | rewrite (upd_eq m a v b) by (clear; lia) ]
  end;
  repeat match goal with H : ?m ?a = _ |- context [?m ?a] => is_var m; rewrite H end.
Ltac xstep := stp; xread; rewrite ?Z.lxor_nilpotent; repeat abs1.
Ltac xs n := do n xstep.
(** Hide the products y_j * x behind variables and let lia add up the row. *)
Ltac gen_prod :=
  repeat match goal with
  | H : context [?a * ?b] |- _ =>
      match type of H with 0 <= _ => fail 1 | _ => idtac end;
      match b with val _ => fail 1 | _ => idtac end;
      is_var a; is_var b;
      let P := fresh "P" in
      assert (P : 0 <= a * b <= (W - 1) * (W - 1)) by (apply word_prod; assumption);
      let p := fresh "p" in revert P; generalize dependent (a * b); intros p; intros
  end.
Ltac rowlia0 := unfold val, word, bit, W in *; lia.
Ltac clear_bounds :=
  repeat match goal with
  | H : word _ |- _ => clear H | H : bit _ |- _ => clear H | H : _ <= _ <= _ |- _ => clear H
  | H : _ (_ + _) = _ |- _ => clear H | H : _ \/ _ |- _ => clear H
  end.
Ltac clear_eqs := repeat match goal with H : _ + W * _ = _ |- _ => clear H end.
(** Row sum with the dropped carries [k] (weight 2^448), which are then shown to be zero. *)
Ltac rowlia k :=
  match goal with |- ?l = ?r =>
    let EQ := fresh "EQ" in
    assert (EQ : r - (l + W * (W * (W * (W * (W * (W * (W * k))))))) = 0) by (clear_bounds; unfold val, W in *; lia);
    let Z := fresh "Z" in
    assert (Z : k = 0);
    [ clear_eqs; unfold val, word, bit, W in *; lia | rewrite Z in EQ; clear -EQ; unfold val, W in *; lia ]
  end.


Lemma asm_multiply_i0_ok : forall rest Q (vRAX vRBX vRCX vRDX vRSI vRDI vRBP vRSP vR8 x0 y0 y1 y2 y3 y4 y5 : Z) (f0 o0 : option Z) (m : Z -> Z),
  word x0 ->  word y0 ->  word y1 ->  word y2 ->  word y3 ->  word y4 ->  word y5 ->
  m (vRSI + 0) = x0 ->
  m (vRDI + 0) = y0 ->
  m (vRDI + 8) = y1 ->
  m (vRDI + 16) = y2 ->
  m (vRDI + 24) = y3 ->
  m (vRDI + 32) = y4 ->
  m (vRDI + 40) = y5 ->
  vRDI + 48 <= vRSP - 8 \/ vRSP <= vRDI ->
  (forall (wRAX wRDX o0_ o1_ o2_ o3_ o4_ o5_ o6_ : Z) (f1 o1 : option Z),
    word o0_ -> word o1_ -> word o2_ -> word o3_ -> word o4_ -> word o5_ -> word o6_ ->
    val [o0_; o1_; o2_; o3_; o4_; o5_; o6_] = x0 * val [y0; y1; y2; y3; y4; y5] ->
    wp rest (mkst (wRAX) (vRBX) (x0) (wRDX) (vRSI) (vRDI) (vRBP) (vRSP - 8) (o1_) (o2_) (o3_) (o4_) (o5_) (o6_) (0) (0) f1 o1 (upd m (vRSP - 8) o0_)) Q) ->
  wp (asm_multiply_i0 ++ rest) (mkst (vRAX) (vRBX) (vRCX) (vRDX) (vRSI) (vRDI) (vRBP) (vRSP) (vR8) (0) (0) (0) (0) (0) (0) (0) f0 o0 m) Q.
Proof.
  intros.
  match goal with H : context [wp rest _ _] |- _ => rename H into KK end.
  apply wp_app. unfold asm_multiply_i0.
  do 25 xstep.
  apply wp_nil. apply KK; try assumption. clear KK.
  replace (x0 * val [y0; y1; y2; y3; y4; y5]) with (y0 * x0 + W * (y1 * x0 + W * (y2 * x0 + W * (y3 * x0 + W * (y4 * x0 + W * (y5 * x0)))))) by (unfold val; ring).
  gen_prod. rowlia0.
Qed.


Lemma asm_multiply_i1_ok : forall rest Q (vRAX vRBX vRCX vRDX vRSI vRDI vRBP vRSP a0 a1 a2 a3 a4 a5 vR15 x1 y0 y1 y2 y3 y4 y5 : Z) (f0 o0 : option Z) (m : Z -> Z),
  word x1 ->  word y0 ->  word y1 ->  word y2 ->  word y3 ->  word y4 ->  word y5 ->  word a0 ->  word a1 ->  word a2 ->  word a3 ->  word a4 ->  word a5 ->
  m (vRSI + 8) = x1 ->
  m (vRDI + 0) = y0 ->
  m (vRDI + 8) = y1 ->
  m (vRDI + 16) = y2 ->
  m (vRDI + 24) = y3 ->
  m (vRDI + 32) = y4 ->
  m (vRDI + 40) = y5 ->
  vRDI + 48 <= vRSP - 8 \/ vRSP <= vRDI ->
  (forall (wRAX wRBX wRDX o0_ o1_ o2_ o3_ o4_ o5_ o6_ : Z) (f1 o1 : option Z),
    word o0_ -> word o1_ -> word o2_ -> word o3_ -> word o4_ -> word o5_ -> word o6_ ->
    val [o0_; o1_; o2_; o3_; o4_; o5_; o6_] = val [a0; a1; a2; a3; a4; a5] + x1 * val [y0; y1; y2; y3; y4; y5] ->
    wp rest (mkst (wRAX) (wRBX) (x1) (wRDX) (vRSI) (vRDI) (vRBP) (vRSP - 8) (0) (o1_) (o2_) (o3_) (o4_) (o5_) (o6_) (vR15) f1 o1 (upd m (vRSP - 8) o0_)) Q) ->
  wp (asm_multiply_i1 ++ rest) (mkst (vRAX) (vRBX) (vRCX) (vRDX) (vRSI) (vRDI) (vRBP) (vRSP) (a0) (a1) (a2) (a3) (a4) (a5) (0) (vR15) f0 o0 m) Q.
Proof.
  intros.
  match goal with H : context [wp rest _ _] |- _ => rename H into KK end.
  apply wp_app. unfold asm_multiply_i1.
  do 40 xstep.
  apply wp_nil. apply KK; try assumption. clear KK.
  replace (x1 * val [y0; y1; y2; y3; y4; y5]) with (y0 * x1 + W * (y1 * x1 + W * (y2 * x1 + W * (y3 * x1 + W * (y4 * x1 + W * (y5 * x1)))))) by (unfold val; ring).
  gen_prod. rowlia (c13 + c15).
Qed.


Lemma asm_multiply_i2_ok : forall rest Q (vRAX vRBX vRCX vRDX vRSI vRDI vRBP vRSP vR8 a0 a1 a2 a3 a4 a5 x2 y0 y1 y2 y3 y4 y5 : Z) (f0 o0 : option Z) (m : Z -> Z),
  word x2 ->  word y0 ->  word y1 ->  word y2 ->  word y3 ->  word y4 ->  word y5 ->  word a0 ->  word a1 ->  word a2 ->  word a3 ->  word a4 ->  word a5 ->
  m (vRSI + 16) = x2 ->
  m (vRDI + 0) = y0 ->
  m (vRDI + 8) = y1 ->
  m (vRDI + 16) = y2 ->
  m (vRDI + 24) = y3 ->
  m (vRDI + 32) = y4 ->
  m (vRDI + 40) = y5 ->
  vRDI + 48 <= vRSP - 8 \/ vRSP <= vRDI ->
  (forall (wRAX wRBX wRDX o0_ o1_ o2_ o3_ o4_ o5_ o6_ : Z) (f1 o1 : option Z),
    word o0_ -> word o1_ -> word o2_ -> word o3_ -> word o4_ -> word o5_ -> word o6_ ->
    val [o0_; o1_; o2_; o3_; o4_; o5_; o6_] = val [a0; a1; a2; a3; a4; a5] + x2 * val [y0; y1; y2; y3; y4; y5] ->
    wp rest (mkst (wRAX) (wRBX) (x2) (wRDX) (vRSI) (vRDI) (vRBP) (vRSP - 8) (vR8) (0) (o1_) (o2_) (o3_) (o4_) (o5_) (o6_) f1 o1 (upd m (vRSP - 8) o0_)) Q) ->
  wp (asm_multiply_i2 ++ rest) (mkst (vRAX) (vRBX) (vRCX) (vRDX) (vRSI) (vRDI) (vRBP) (vRSP) (vR8) (a0) (a1) (a2) (a3) (a4) (a5) (0) f0 o0 m) Q.
Proof.
  intros.
  match goal with H : context [wp rest _ _] |- _ => rename H into KK end.
  apply wp_app. unfold asm_multiply_i2.
  do 40 xstep.
  apply wp_nil. apply KK; try assumption. clear KK.
  replace (x2 * val [y0; y1; y2; y3; y4; y5]) with (y0 * x2 + W * (y1 * x2 + W * (y2 * x2 + W * (y3 * x2 + W * (y4 * x2 + W * (y5 * x2)))))) by (unfold val; ring).
  gen_prod. rowlia (c13 + c15).
Qed.


Lemma asm_multiply_i3_ok : forall rest Q (vRAX vRBX vRCX vRDX vRSI vRDI vRBP vRSP vR9 a0 a1 a2 a3 a4 a5 x3 y0 y1 y2 y3 y4 y5 : Z) (f0 o0 : option Z) (m : Z -> Z),
  word x3 ->  word y0 ->  word y1 ->  word y2 ->  word y3 ->  word y4 ->  word y5 ->  word a0 ->  word a1 ->  word a2 ->  word a3 ->  word a4 ->  word a5 ->
  m (vRSI + 24) = x3 ->
  m (vRDI + 0) = y0 ->
  m (vRDI + 8) = y1 ->
  m (vRDI + 16) = y2 ->
  m (vRDI + 24) = y3 ->
  m (vRDI + 32) = y4 ->
  m (vRDI + 40) = y5 ->
  (forall (wRAX wRBX wRDX o0_ o1_ o2_ o3_ o4_ o5_ o6_ : Z) (f1 o1 : option Z),
    word o0_ -> word o1_ -> word o2_ -> word o3_ -> word o4_ -> word o5_ -> word o6_ ->
    val [o0_; o1_; o2_; o3_; o4_; o5_; o6_] = val [a0; a1; a2; a3; a4; a5] + x3 * val [y0; y1; y2; y3; y4; y5] ->
    wp rest (mkst (wRAX) (wRBX) (x3) (wRDX) (vRSI) (vRDI) (vRBP) (vRSP) (o6_) (vR9) (o0_) (o1_) (o2_) (o3_) (o4_) (o5_) f1 o1 (m)) Q) ->
  wp (asm_multiply_i3 ++ rest) (mkst (vRAX) (vRBX) (vRCX) (vRDX) (vRSI) (vRDI) (vRBP) (vRSP) (0) (vR9) (a0) (a1) (a2) (a3) (a4) (a5) f0 o0 m) Q.
Proof.
  intros.
  match goal with H : context [wp rest _ _] |- _ => rename H into KK end.
  apply wp_app. unfold asm_multiply_i3.
  do 38 xstep.
  apply wp_nil. apply KK; try assumption. clear KK.
  replace (x3 * val [y0; y1; y2; y3; y4; y5]) with (y0 * x3 + W * (y1 * x3 + W * (y2 * x3 + W * (y3 * x3 + W * (y4 * x3 + W * (y5 * x3)))))) by (unfold val; ring).
  gen_prod. rowlia (c13 + c15).
Qed.


Lemma asm_multiply_i4_ok : forall rest Q (vRAX vRBX vRCX vRDX vRSI vRDI vRBP vRSP a5 vR10 a0 a1 a2 a3 a4 x4 y0 y1 y2 y3 y4 y5 : Z) (f0 o0 : option Z) (m : Z -> Z),
  word x4 ->  word y0 ->  word y1 ->  word y2 ->  word y3 ->  word y4 ->  word y5 ->  word a0 ->  word a1 ->  word a2 ->  word a3 ->  word a4 ->  word a5 ->
  m (vRSI + 32) = x4 ->
  m (vRDI + 0) = y0 ->
  m (vRDI + 8) = y1 ->
  m (vRDI + 16) = y2 ->
  m (vRDI + 24) = y3 ->
  m (vRDI + 32) = y4 ->
  m (vRDI + 40) = y5 ->
  (forall (wRAX wRBX wRDX o0_ o1_ o2_ o3_ o4_ o5_ o6_ : Z) (f1 o1 : option Z),
    word o0_ -> word o1_ -> word o2_ -> word o3_ -> word o4_ -> word o5_ -> word o6_ ->
    val [o0_; o1_; o2_; o3_; o4_; o5_; o6_] = val [a0; a1; a2; a3; a4; a5] + x4 * val [y0; y1; y2; y3; y4; y5] ->
    wp rest (mkst (wRAX) (wRBX) (x4) (wRDX) (vRSI) (vRDI) (vRBP) (vRSP) (o5_) (o6_) (vR10) (o0_) (o1_) (o2_) (o3_) (o4_) f1 o1 (m)) Q) ->
  wp (asm_multiply_i4 ++ rest) (mkst (vRAX) (vRBX) (vRCX) (vRDX) (vRSI) (vRDI) (vRBP) (vRSP) (a5) (0) (vR10) (a0) (a1) (a2) (a3) (a4) f0 o0 m) Q.
Proof.
  intros.
  match goal with H : context [wp rest _ _] |- _ => rename H into KK end.
  apply wp_app. unfold asm_multiply_i4.
  do 38 xstep.
  apply wp_nil. apply KK; try assumption. clear KK.
  replace (x4 * val [y0; y1; y2; y3; y4; y5]) with (y0 * x4 + W * (y1 * x4 + W * (y2 * x4 + W * (y3 * x4 + W * (y4 * x4 + W * (y5 * x4)))))) by (unfold val; ring).
  gen_prod. rowlia (c13 + c15).
Qed.


Lemma asm_multiply_i5_ok : forall rest Q (vRAX vRBX vRCX vRDX vRSI vRDI vRBP vRSP a4 a5 vR10 vR11 a0 a1 a2 a3 x5 y0 y1 y2 y3 y4 y5 : Z) (f0 o0 : option Z) (m : Z -> Z),
  word x5 ->  word y0 ->  word y1 ->  word y2 ->  word y3 ->  word y4 ->  word y5 ->  word a0 ->  word a1 ->  word a2 ->  word a3 ->  word a4 ->  word a5 ->
  m (vRSI + 40) = x5 ->
  m (vRDI + 0) = y0 ->
  m (vRDI + 8) = y1 ->
  m (vRDI + 16) = y2 ->
  m (vRDI + 24) = y3 ->
  m (vRDI + 32) = y4 ->
  m (vRDI + 40) = y5 ->
  (forall (wRAX wRDX o0_ o1_ o2_ o3_ o4_ o5_ o6_ : Z) (f1 o1 : option Z),
    word o0_ -> word o1_ -> word o2_ -> word o3_ -> word o4_ -> word o5_ -> word o6_ ->
    val [o0_; o1_; o2_; o3_; o4_; o5_; o6_] = val [a0; a1; a2; a3; a4; a5] + x5 * val [y0; y1; y2; y3; y4; y5] ->
    wp rest (mkst (wRAX) (o6_) (m (vRSP + 8 + 8)) (wRDX) (m vRSP) (m (vRSP + 8)) (vRBP) (vRSP + 8 + 8 + 8 - 8 - 8) (o4_) (o5_) (vR10) (vR11) (o0_) (o1_) (o2_) (o3_) f1 o1 (upd (upd m (vRSP + 8 + 8 + 8 - 8) o6_) (vRSP + 8 + 8 + 8 - 8 - 8) o5_)) Q) ->
  wp (asm_multiply_i5 ++ rest) (mkst (vRAX) (vRBX) (vRCX) (vRDX) (vRSI) (vRDI) (vRBP) (vRSP) (a4) (a5) (vR10) (vR11) (a0) (a1) (a2) (a3) f0 o0 m) Q.
Proof.
  intros.
  match goal with H : context [wp rest _ _] |- _ => rename H into KK end.
  apply wp_app. unfold asm_multiply_i5.
  do 43 xstep.
  apply wp_nil. apply KK; try assumption. clear KK.
  replace (x5 * val [y0; y1; y2; y3; y4; y5]) with (y0 * x5 + W * (y1 * x5 + W * (y2 * x5 + W * (y3 * x5 + W * (y4 * x5 + W * (y5 * x5)))))) by (unfold val; ring).
  gen_prod. rowlia (c13 + c15).
Qed.


(** one limb of a reduction row of __multiply *)
Lemma mac_num : forall lo hi K q s1 c1 u s2 c2 s3 c3 b s4 c4,
  lo + W * hi = K * q -> s1 + W * c1 = u + lo + 0 -> s2 + W * c2 = hi + 0 + c1 ->
  s3 + W * c3 = s1 + b + 0 -> s4 + W * c4 = 0 + s2 + c3 ->
  0 <= hi <= W - 2 -> word lo -> word u -> word b -> word s1 -> word s2 -> word s3 -> word s4 ->
  bit c1 -> bit c2 -> bit c3 -> bit c4 -> word K -> word q ->
  s3 + W * s4 = u + b + K * q.
Proof.
  intros. assert (c2 = 0) by (unfold bit, word, W in *; lia).
  assert (s1 + W * s2 = u + K * q) by (subst c2; unfold W in *; lia).
  assert (s2 <= W - 1) by (unfold word in *; lia).
  assert (KQ : 0 <= K * q <= (W - 1) * (W - 1)) by (apply word_prod; assumption).
  generalize dependent (K * q). intros.
  assert (c4 = 0) by (unfold bit, word, W in *; lia). unfold W in *; lia.
Qed.
Lemma low_num : forall q h u0 lo hi s c, q + W * h = u0 * 9940570264628428797 ->
  lo + W * hi = 13402431016077863595 * q -> s + W * c = u0 + lo + 0 -> word s -> s = 0.
Proof. intros. unfold word, W in *. lia. Qed.
Lemma first_num : forall hi s c k, s + W * k = 0 + hi + c -> 0 <= hi <= W - 2 -> bit c -> word s -> bit k ->
  s = hi + c.
Proof. intros. unfold word, bit, W in *. lia. Qed.
Lemma fin0_num : forall lo hi K q s1 c1 u s2 c2 s3 c3 b s4 c4 u6,
  lo + W * hi = K * q -> s1 + W * c1 = u + lo + 0 -> s2 + W * c2 = hi + 0 + c1 ->
  s3 + W * c3 = s1 + b + 0 -> s4 + W * c4 = u6 + s2 + c3 ->
  0 <= hi <= W - 2 -> word s2 -> bit c1 -> bit c2 ->
  s3 + W * s4 + W * (W * c4) = u + b + K * q + W * u6.
Proof. intros. assert (c2 = 0) by (unfold bit, word, W in *; lia). unfold W in *; lia. Qed.
Lemma fin1_num : forall lo hi q s1 c1 u s2 c2 s3 c3 b s4 c4 u6 k,
  lo + W * hi = 1873798617647539866 * q -> s1 + W * c1 = u + lo + 0 -> s2 + W * c2 = k + hi + c1 ->
  s3 + W * c3 = s1 + b + 0 -> s4 + W * c4 = u6 + s2 + c3 ->
  word lo -> word q -> word s2 -> bit c1 -> bit c2 -> bit k ->
  s3 + W * s4 + W * (W * c4) = u + b + 1873798617647539866 * q + W * (u6 + k).
Proof. intros. assert (c2 = 0) by (unfold bit, word, W in *; lia). unfold W in *; lia. Qed.
Lemma fin1_num' : forall lo hi q s1 c1 u s2 c2 s3 c3 b s4 c4 u6 k,
  lo + W * hi = 1873798617647539866 * q -> s1 + W * c1 = u + lo + 0 -> s2 + W * c2 = k + hi + c1 ->
  s3 + W * c3 = s1 + b + 0 -> s4 + W * c4 = s2 + u6 + c3 ->
  word lo -> word q -> word s2 -> bit c1 -> bit c2 -> bit k ->
  s3 + W * s4 + W * (W * c4) = u + b + 1873798617647539866 * q + W * (u6 + k).
Proof. intros. assert (c2 = 0) by (unfold bit, word, W in *; lia). unfold W in *; lia. Qed.
Ltac rowred :=
  match goal with
  | E : ?q + W * ?h = ?u0 * 9940570264628428797, E0 : ?lo + W * ?hi = 13402431016077863595 * ?q,
    E1 : ?s + W * ?c = ?u0 + ?lo + 0, E2 : ?s0 + W * ?c0 = 0 + ?hi + ?c |- _ =>
      let L := fresh "L" in
      assert (L : s = 0) by (apply (low_num _ _ _ _ _ _ _ E E0 E1); assumption);
      pose proof (first_num _ _ _ _ E2 ltac:(assumption) ltac:(assumption) ltac:(assumption) ltac:(assumption));
      clear E2 E
  end;
  repeat match goal with
  | EM : ?lo + W * ?hi = ?K * ?q, E1 : ?s1 + W * ?c1 = ?u + ?lo + 0, E2 : ?s2 + W * ?c2 = ?hi + 0 + ?c1,
    E3 : ?s3 + W * ?c3 = ?s1 + ?b + 0, E4 : ?s4 + W * ?c4 = 0 + ?s2 + ?c3 |- _ =>
      pose proof (mac_num lo hi K q s1 c1 u s2 c2 s3 c3 b s4 c4 EM E1 E2 E3 E4
        ltac:(assumption) ltac:(assumption) ltac:(assumption) ltac:(assumption) ltac:(assumption) ltac:(assumption)
        ltac:(assumption) ltac:(assumption) ltac:(assumption) ltac:(assumption) ltac:(assumption) ltac:(assumption) ltac:(side) ltac:(side));
      clear EM E1 E2 E3 E4
  end;
  match goal with
  | EM : ?lo + W * ?hi = ?K * ?q, E1 : ?s1 + W * ?c1 = ?u + ?lo + 0, E2 : ?s2 + W * ?c2 = ?hi + 0 + ?c1,
    E3 : ?s3 + W * ?c3 = ?s1 + ?b + 0, E4 : ?s4 + W * ?c4 = ?u6 + ?s2 + ?c3 |- _ =>
      pose proof (fin0_num lo hi K q s1 c1 u s2 c2 s3 c3 b s4 c4 u6 EM E1 E2 E3 E4
        ltac:(assumption) ltac:(assumption) ltac:(assumption) ltac:(assumption)); clear EM E1 E2 E3 E4
  | EM : ?lo + W * ?hi = ?K * ?q, E1 : ?s1 + W * ?c1 = ?u + ?lo + 0, E2 : ?s2 + W * ?c2 = ?k + ?hi + ?c1,
    E3 : ?s3 + W * ?c3 = ?s1 + ?b + 0, E4 : ?s4 + W * ?c4 = ?u6 + ?s2 + ?c3 |- _ =>
      pose proof (fin1_num lo hi q s1 c1 u s2 c2 s3 c3 b s4 c4 u6 k EM E1 E2 E3 E4
        ltac:(assumption) ltac:(assumption) ltac:(assumption) ltac:(assumption) ltac:(assumption) ltac:(assumption)); clear EM E1 E2 E3 E4
  | EM : ?lo + W * ?hi = ?K * ?q, E1 : ?s1 + W * ?c1 = ?u + ?lo + 0, E2 : ?s2 + W * ?c2 = ?k + ?hi + ?c1,
    E3 : ?s3 + W * ?c3 = ?s1 + ?b + 0, E4 : ?s4 + W * ?c4 = ?s2 + ?u6 + ?c3 |- _ =>
      pose proof (fin1_num' lo hi q s1 c1 u s2 c2 s3 c3 b s4 c4 u6 k EM E1 E2 E3 E4
        ltac:(assumption) ltac:(assumption) ltac:(assumption) ltac:(assumption) ltac:(assumption) ltac:(assumption)); clear EM E1 E2 E3 E4
  end;
  (* [top]: the carry word of row 0 is (low word = 0) + 0 + carry *)
  try match goal with
  | L : ?s = 0, E4 : ?k + W * ?j = ?s + 0 + ?c |- _ =>
      let H := fresh in assert (H : k = c) by (unfold word, bit, W in *; lia); subst k; clear E4
  end;
  first [ assumption | repeat match goal with H : word _ |- _ => clear H | H : bit _ |- _ => clear H | H : _ <= _ <= _ |- _ => clear H end;
                       unfold val, MODULUS, W in *; lia ].

Lemma asm_multiply_red_i0_ok : forall rest Q (vRAX vRBX u0 vRDX u2 u1 vRBP vRSP vR8 vR9 u3 u4 u5 u6 vR14 vR15 : Z) (f0 o0 : option Z) (m : Z -> Z),
  word u0 ->  word u1 ->  word u2 ->  word u3 ->  word u4 ->  word u5 ->  word u6 ->
  m (vRBP + 0) = 9940570264628428797 ->
  m (vRBP + -8) = 13402431016077863595 ->
  m (vRBP + -16) = 2210141511517208575 ->
  m (vRBP + -24) = 7435674573564081700 ->
  m (vRBP + -32) = 7239337960414712511 ->
  m (vRBP + -40) = 5412103778470702295 ->
  m (vRBP + -48) = 1873798617647539866 ->
  (forall (wRAX wRBX wRDX o1_ o2_ o3_ o4_ o5_ o6_ k_ q : Z) (f1 o1 : option Z),
    word o1_ -> word o2_ -> word o3_ -> word o4_ -> word o5_ -> word o6_ -> word q ->
    bit k_ ->
    W * val [o1_; o2_; o3_; o4_; o5_; o6_; k_] = val [u0; u1; u2; u3; u4; u5; u6] + q * MODULUS ->
    wp rest (mkst (wRAX) (wRBX) (k_) (wRDX) (o2_) (o1_) (vRBP) (vRSP) (vR8) (q) (o3_) (o4_) (o5_) (o6_) (vR14) (vR15) f1 o1 (m)) Q) ->
  wp (asm_multiply_red_i0 ++ rest) (mkst (vRAX) (vRBX) (u0) (vRDX) (u2) (u1) (vRBP) (vRSP) (vR8) (vR9) (u3) (u4) (u5) (u6) (vR14) (vR15) f0 o0 m) Q.
Proof.
  intros.
  match goal with H : context [wp rest _ _] |- _ => rename H into KK end.
  apply wp_app. unfold asm_multiply_red_i0.
  do 43 xstep.
  apply wp_nil. eapply KK; try eassumption; clear KK; rowred.
Qed.


Lemma asm_multiply_red_i1_ok : forall rest Q (vRAX vRBX k vRDX u1 u0 vRBP vRSP vR8 vR9 u2 u3 u4 u5 u6 vR15 : Z) (f0 o0 : option Z) (m : Z -> Z),
  word u0 ->  word u1 ->  word u2 ->  word u3 ->  word u4 ->  word u5 ->  word u6 ->
  m (vRBP + 0) = 9940570264628428797 ->
  m (vRBP + -8) = 13402431016077863595 ->
  m (vRBP + -16) = 2210141511517208575 ->
  m (vRBP + -24) = 7435674573564081700 ->
  m (vRBP + -32) = 7239337960414712511 ->
  m (vRBP + -40) = 5412103778470702295 ->
  m (vRBP + -48) = 1873798617647539866 ->
  bit k ->
  (forall (wRAX wRBX wRDX wRDI o1_ o2_ o3_ o4_ o5_ o6_ k_ q : Z) (f1 o1 : option Z),
    word o1_ -> word o2_ -> word o3_ -> word o4_ -> word o5_ -> word o6_ -> word q ->
    bit k_ ->
    W * val [o1_; o2_; o3_; o4_; o5_; o6_; k_] = val [u0; u1; u2; u3; u4; u5; u6] + W * (W * (W * (W * (W * (W * k))))) + q * MODULUS ->
    wp rest (mkst (wRAX) (wRBX) (k_) (wRDX) (o1_) (wRDI) (vRBP) (vRSP) (vR8) (q) (o2_) (o3_) (o4_) (o5_) (o6_) (vR15) f1 o1 (m)) Q) ->
  wp (asm_multiply_red_i1 ++ rest) (mkst (vRAX) (vRBX) (k) (vRDX) (u1) (u0) (vRBP) (vRSP) (vR8) (vR9) (u2) (u3) (u4) (u5) (u6) (vR15) f0 o0 m) Q.
Proof.
  intros.
  match goal with H : context [wp rest _ _] |- _ => rename H into KK end.
  apply wp_app. unfold asm_multiply_red_i1.
  do 44 xstep.
  apply wp_nil. eapply KK; try eassumption; clear KK; rowred.
Qed.


Lemma asm_multiply_red_i2_ok : forall rest Q (vRAX vRBX k vRDX u0 vRDI vRBP vRSP vR8 vR9 u1 u2 u3 u4 u5 u6 : Z) (f0 o0 : option Z) (m : Z -> Z),
  word u0 ->  word u1 ->  word u2 ->  word u3 ->  word u4 ->  word u5 ->  word u6 ->
  m (vRBP + 0) = 9940570264628428797 ->
  m (vRBP + -8) = 13402431016077863595 ->
  m (vRBP + -16) = 2210141511517208575 ->
  m (vRBP + -24) = 7435674573564081700 ->
  m (vRBP + -32) = 7239337960414712511 ->
  m (vRBP + -40) = 5412103778470702295 ->
  m (vRBP + -48) = 1873798617647539866 ->
  bit k ->
  (forall (wRAX wRBX wRDX wRSI o1_ o2_ o3_ o4_ o5_ o6_ k_ q : Z) (f1 o1 : option Z),
    word o1_ -> word o2_ -> word o3_ -> word o4_ -> word o5_ -> word o6_ -> word q ->
    bit k_ ->
    W * val [o1_; o2_; o3_; o4_; o5_; o6_; k_] = val [u0; u1; u2; u3; u4; u5; u6] + W * (W * (W * (W * (W * (W * k))))) + q * MODULUS ->
    wp rest (mkst (wRAX) (wRBX) (k_) (wRDX) (wRSI) (vRDI) (vRBP) (vRSP) (vR8) (q) (o1_) (o2_) (o3_) (o4_) (o5_) (o6_) f1 o1 (m)) Q) ->
  wp (asm_multiply_red_i2 ++ rest) (mkst (vRAX) (vRBX) (k) (vRDX) (u0) (vRDI) (vRBP) (vRSP) (vR8) (vR9) (u1) (u2) (u3) (u4) (u5) (u6) f0 o0 m) Q.
Proof.
  intros.
  match goal with H : context [wp rest _ _] |- _ => rename H into KK end.
  apply wp_app. unfold asm_multiply_red_i2.
  do 44 xstep.
  apply wp_nil. eapply KK; try eassumption; clear KK; rowred.
Qed.


Lemma asm_multiply_red_i3_ok : forall rest Q (vRAX vRBX k vRDX vRSI vRDI vRBP vRSP u6 vR9 u0 u1 u2 u3 u4 u5 : Z) (f0 o0 : option Z) (m : Z -> Z),
  word u0 ->  word u1 ->  word u2 ->  word u3 ->  word u4 ->  word u5 ->  word u6 ->
  m (vRBP + 0) = 9940570264628428797 ->
  m (vRBP + -8) = 13402431016077863595 ->
  m (vRBP + -16) = 2210141511517208575 ->
  m (vRBP + -24) = 7435674573564081700 ->
  m (vRBP + -32) = 7239337960414712511 ->
  m (vRBP + -40) = 5412103778470702295 ->
  m (vRBP + -48) = 1873798617647539866 ->
  bit k ->
  (forall (wRAX wRBX wRDX wR10 o1_ o2_ o3_ o4_ o5_ o6_ k_ q : Z) (f1 o1 : option Z),
    word o1_ -> word o2_ -> word o3_ -> word o4_ -> word o5_ -> word o6_ -> word q ->
    bit k_ ->
    W * val [o1_; o2_; o3_; o4_; o5_; o6_; k_] = val [u0; u1; u2; u3; u4; u5; u6] + W * (W * (W * (W * (W * (W * k))))) + q * MODULUS ->
    wp rest (mkst (wRAX) (wRBX) (k_) (wRDX) (vRSI) (vRDI) (vRBP) (vRSP) (o6_) (q) (wR10) (o1_) (o2_) (o3_) (o4_) (o5_) f1 o1 (m)) Q) ->
  wp (asm_multiply_red_i3 ++ rest) (mkst (vRAX) (vRBX) (k) (vRDX) (vRSI) (vRDI) (vRBP) (vRSP) (u6) (vR9) (u0) (u1) (u2) (u3) (u4) (u5) f0 o0 m) Q.
Proof.
  intros.
  match goal with H : context [wp rest _ _] |- _ => rename H into KK end.
  apply wp_app. unfold asm_multiply_red_i3.
  do 44 xstep.
  apply wp_nil. eapply KK; try eassumption; clear KK; rowred.
Qed.


Lemma asm_multiply_red_i4_ok : forall rest Q (vRAX vRBX k vRDX vRSI vRDI vRBP vRSP u5 vR9 vR10 u0 u1 u2 u3 u4 u6 : Z) (f0 o0 : option Z) (m : Z -> Z),
  word u0 ->  word u1 ->  word u2 ->  word u3 ->  word u4 ->  word u5 ->  word u6 ->
  m (vRBP + 0) = 9940570264628428797 ->
  m (vRBP + -8) = 13402431016077863595 ->
  m (vRBP + -16) = 2210141511517208575 ->
  m (vRBP + -24) = 7435674573564081700 ->
  m (vRBP + -32) = 7239337960414712511 ->
  m (vRBP + -40) = 5412103778470702295 ->
  m (vRBP + -48) = 1873798617647539866 ->
  m vRSP = u6 ->
  bit k ->
  (forall (wRAX wRBX wRDX wR11 o1_ o2_ o3_ o4_ o5_ o6_ k_ q : Z) (f1 o1 : option Z),
    word o1_ -> word o2_ -> word o3_ -> word o4_ -> word o5_ -> word o6_ -> word q ->
    bit k_ ->
    W * val [o1_; o2_; o3_; o4_; o5_; o6_; k_] = val [u0; u1; u2; u3; u4; u5; u6] + W * (W * (W * (W * (W * (W * k))))) + q * MODULUS ->
    wp rest (mkst (wRAX) (wRBX) (k_) (wRDX) (vRSI) (o6_) (vRBP) (vRSP + 8) (o5_) (q) (vR10) (wR11) (o1_) (o2_) (o3_) (o4_) f1 o1 (m)) Q) ->
  wp (asm_multiply_red_i4 ++ rest) (mkst (vRAX) (vRBX) (k) (vRDX) (vRSI) (vRDI) (vRBP) (vRSP) (u5) (vR9) (vR10) (u0) (u1) (u2) (u3) (u4) f0 o0 m) Q.
Proof.
  intros.
  match goal with H : context [wp rest _ _] |- _ => rename H into KK end.
  apply wp_app. unfold asm_multiply_red_i4.
  do 45 xstep.
  apply wp_nil. eapply KK; try eassumption; clear KK; rowred.
Qed.


Lemma asm_multiply_red_i5_ok : forall rest Q (vRAX vRBX k vRDX vRSI u5 vRBP vRSP u4 vR9 vR10 vR11 u0 u1 u2 u3 u6 : Z) (f0 o0 : option Z) (m : Z -> Z),
  word u0 ->  word u1 ->  word u2 ->  word u3 ->  word u4 ->  word u5 ->  word u6 ->
  m (vRBP + 0) = 9940570264628428797 ->
  m (vRBP + -8) = 13402431016077863595 ->
  m (vRBP + -16) = 2210141511517208575 ->
  m (vRBP + -24) = 7435674573564081700 ->
  m (vRBP + -32) = 7239337960414712511 ->
  m (vRBP + -40) = 5412103778470702295 ->
  m (vRBP + -48) = 1873798617647539866 ->
  m vRSP = u6 ->
  bit k ->
  (forall (wRAX wRBX wRDX wRSI wR12 o1_ o2_ o3_ o4_ o5_ o6_ k_ q : Z) ( o1 : option Z),
    word o1_ -> word o2_ -> word o3_ -> word o4_ -> word o5_ -> word o6_ -> word q ->
    bit k_ ->
    W * val [o1_; o2_; o3_; o4_; o5_; o6_; k_] = val [u0; u1; u2; u3; u4; u5; u6] + W * (W * (W * (W * (W * (W * k))))) + q * MODULUS ->
    wp rest (mkst (wRAX) (wRBX) (o6_) (wRDX) (wRSI) (o5_) (vRBP) (vRSP + 8) (o4_) (q) (vR10) (vR11) (wR12) (o1_) (o2_) (o3_) (Some k_) o1 (m)) Q) ->
  wp (asm_multiply_red_i5 ++ rest) (mkst (vRAX) (vRBX) (k) (vRDX) (vRSI) (u5) (vRBP) (vRSP) (u4) (vR9) (vR10) (vR11) (u0) (u1) (u2) (u3) f0 o0 m) Q.
Proof.
  intros.
  match goal with H : context [wp rest _ _] |- _ => rename H into KK end.
  apply wp_app. unfold asm_multiply_red_i5.
  do 43 xstep.
  apply wp_nil. eapply KK; try eassumption; clear KK; rowred.
Qed.

Lemma asm_mul_ex_i0_ok : forall rest Q (vRAX vRBX vRCX vRDX vRSI vRDI vRBP vRSP vR8 vR9 vR10 vR11 vR12 vR13 vR14 vR15 x0 y0 y1 y2 y3 y4 y5 : Z) (f0 o0 : option Z) (m : Z -> Z),
  word x0 ->  word y0 ->  word y1 ->  word y2 ->  word y3 ->  word y4 ->  word y5 ->
  m (vRSI + 0) = x0 ->
  m (vRDI + 0) = y0 ->
  m (vRDI + 8) = y1 ->
  m (vRDI + 16) = y2 ->
  m (vRDI + 24) = y3 ->
  m (vRDI + 32) = y4 ->
  m (vRDI + 40) = y5 ->
  vRDI + 48 <= vRSP - 8 \/ vRSP <= vRDI ->
  (forall (wRAX o0_ o1_ o2_ o3_ o4_ o5_ o6_ : Z) (f1 o1 : option Z),
    word o0_ -> word o1_ -> word o2_ -> word o3_ -> word o4_ -> word o5_ -> word o6_ ->
    val [o0_; o1_; o2_; o3_; o4_; o5_; o6_] = x0 * val [y0; y1; y2; y3; y4; y5] ->
    wp rest (mkst (wRAX) (vRBX) (o1_) (x0) (vRSI) (vRDI) (vRBP) (vRSP - 8) (o2_) (o3_) (o4_) (o5_) (o6_) (vR13) (vR14) (vR15) f1 o1 (upd m (vRSP - 8) o0_)) Q) ->
  wp (asm_mul_ex_i0 ++ rest) (mkst (vRAX) (vRBX) (vRCX) (vRDX) (vRSI) (vRDI) (vRBP) (vRSP) (vR8) (vR9) (vR10) (vR11) (vR12) (vR13) (vR14) (vR15) (Some 0) (Some 0) m) Q.
Proof.
  intros.
  match goal with H : context [wp rest _ _] |- _ => rename H into KK end.
  apply wp_app. unfold asm_mul_ex_i0.
  do 14 xstep.
  apply wp_nil. apply KK; try assumption. clear KK.
  replace (x0 * val [y0; y1; y2; y3; y4; y5]) with (x0 * y0 + W * (x0 * y1 + W * (x0 * y2 + W * (x0 * y3 + W * (x0 * y4 + W * (x0 * y5)))))) by (unfold val; ring).
  gen_prod. rowlia (c4).
Qed.


Lemma asm_mul_ex_i1_ok : forall rest Q (vRAX vRBX a0 vRDX vRSI vRDI vRBP vRSP a1 a2 a3 a4 a5 vR13 vR14 vR15 x1 y0 y1 y2 y3 y4 y5 : Z) (f0 o0 : option Z) (m : Z -> Z),
  word x1 ->  word y0 ->  word y1 ->  word y2 ->  word y3 ->  word y4 ->  word y5 ->  word a0 ->  word a1 ->  word a2 ->  word a3 ->  word a4 ->  word a5 ->
  m (vRSI + 8) = x1 ->
  m (vRDI + 0) = y0 ->
  m (vRDI + 8) = y1 ->
  m (vRDI + 16) = y2 ->
  m (vRDI + 24) = y3 ->
  m (vRDI + 32) = y4 ->
  m (vRDI + 40) = y5 ->
  vRDI + 48 <= vRSP - 8 \/ vRSP <= vRDI ->
  (forall (wRAX wRBX o0_ o1_ o2_ o3_ o4_ o5_ o6_ : Z) (f1 o1 : option Z),
    word o0_ -> word o1_ -> word o2_ -> word o3_ -> word o4_ -> word o5_ -> word o6_ ->
    val [o0_; o1_; o2_; o3_; o4_; o5_; o6_] = val [a0; a1; a2; a3; a4; a5] + x1 * val [y0; y1; y2; y3; y4; y5] ->
    wp rest (mkst (wRAX) (wRBX) (o0_) (x1) (vRSI) (vRDI) (vRBP) (vRSP - 8) (o1_) (o2_) (o3_) (o4_) (o5_) (o6_) (vR14) (vR15) f1 o1 (upd m (vRSP - 8) o0_)) Q) ->
  wp (asm_mul_ex_i1 ++ rest) (mkst (vRAX) (vRBX) (a0) (vRDX) (vRSI) (vRDI) (vRBP) (vRSP) (a1) (a2) (a3) (a4) (a5) (vR13) (vR14) (vR15) f0 o0 m) Q.
Proof.
  intros.
  match goal with H : context [wp rest _ _] |- _ => rename H into KK end.
  apply wp_app. unfold asm_mul_ex_i1.
  do 22 xstep.
  apply wp_nil. apply KK; try assumption. clear KK.
  replace (x1 * val [y0; y1; y2; y3; y4; y5]) with (x1 * y0 + W * (x1 * y1 + W * (x1 * y2 + W * (x1 * y3 + W * (x1 * y4 + W * (x1 * y5)))))) by (unfold val; ring).
  gen_prod. rowlia (c10).
Qed.


Lemma asm_mul_ex_i2_ok : forall rest Q (vRAX vRBX vRCX vRDX vRSI vRDI vRBP vRSP a0 a1 a2 a3 a4 a5 vR14 vR15 x2 y0 y1 y2 y3 y4 y5 : Z) (f0 o0 : option Z) (m : Z -> Z),
  word x2 ->  word y0 ->  word y1 ->  word y2 ->  word y3 ->  word y4 ->  word y5 ->  word a0 ->  word a1 ->  word a2 ->  word a3 ->  word a4 ->  word a5 ->
  m (vRSI + 16) = x2 ->
  m (vRDI + 0) = y0 ->
  m (vRDI + 8) = y1 ->
  m (vRDI + 16) = y2 ->
  m (vRDI + 24) = y3 ->
  m (vRDI + 32) = y4 ->
  m (vRDI + 40) = y5 ->
  (forall (wRAX wRBX o0_ o1_ o2_ o3_ o4_ o5_ o6_ : Z) (f1 o1 : option Z),
    word o0_ -> word o1_ -> word o2_ -> word o3_ -> word o4_ -> word o5_ -> word o6_ ->
    val [o0_; o1_; o2_; o3_; o4_; o5_; o6_] = val [a0; a1; a2; a3; a4; a5] + x2 * val [y0; y1; y2; y3; y4; y5] ->
    wp rest (mkst (wRAX) (wRBX) (vRCX) (x2) (vRSI) (vRDI) (vRBP) (vRSP) (o0_) (o1_) (o2_) (o3_) (o4_) (o5_) (o6_) (vR15) f1 o1 (m)) Q) ->
  wp (asm_mul_ex_i2 ++ rest) (mkst (vRAX) (vRBX) (vRCX) (vRDX) (vRSI) (vRDI) (vRBP) (vRSP) (a0) (a1) (a2) (a3) (a4) (a5) (vR14) (vR15) f0 o0 m) Q.
Proof.
  intros.
  match goal with H : context [wp rest _ _] |- _ => rename H into KK end.
  apply wp_app. unfold asm_mul_ex_i2.
  do 21 xstep.
  apply wp_nil. apply KK; try assumption. clear KK.
  replace (x2 * val [y0; y1; y2; y3; y4; y5]) with (x2 * y0 + W * (x2 * y1 + W * (x2 * y2 + W * (x2 * y3 + W * (x2 * y4 + W * (x2 * y5)))))) by (unfold val; ring).
  gen_prod. rowlia (c10).
Qed.


Lemma asm_mul_ex_i3_ok : forall rest Q (vRAX vRBX vRCX vRDX vRSI vRDI vRBP vRSP vR8 a0 a1 a2 a3 a4 a5 vR15 x3 y0 y1 y2 y3 y4 y5 : Z) (f0 o0 : option Z) (m : Z -> Z),
  word x3 ->  word y0 ->  word y1 ->  word y2 ->  word y3 ->  word y4 ->  word y5 ->  word a0 ->  word a1 ->  word a2 ->  word a3 ->  word a4 ->  word a5 ->
  m (vRSI + 24) = x3 ->
  m (vRDI + 0) = y0 ->
  m (vRDI + 8) = y1 ->
  m (vRDI + 16) = y2 ->
  m (vRDI + 24) = y3 ->
  m (vRDI + 32) = y4 ->
  m (vRDI + 40) = y5 ->
  (forall (wRAX wRBX o0_ o1_ o2_ o3_ o4_ o5_ o6_ : Z) (f1 o1 : option Z),
    word o0_ -> word o1_ -> word o2_ -> word o3_ -> word o4_ -> word o5_ -> word o6_ ->
    val [o0_; o1_; o2_; o3_; o4_; o5_; o6_] = val [a0; a1; a2; a3; a4; a5] + x3 * val [y0; y1; y2; y3; y4; y5] ->
    wp rest (mkst (wRAX) (wRBX) (vRCX) (x3) (vRSI) (vRDI) (vRBP) (vRSP) (vR8) (o0_) (o1_) (o2_) (o3_) (o4_) (o5_) (o6_) f1 o1 (m)) Q) ->
  wp (asm_mul_ex_i3 ++ rest) (mkst (vRAX) (vRBX) (vRCX) (vRDX) (vRSI) (vRDI) (vRBP) (vRSP) (vR8) (a0) (a1) (a2) (a3) (a4) (a5) (vR15) f0 o0 m) Q.
Proof.
  intros.
  match goal with H : context [wp rest _ _] |- _ => rename H into KK end.
  apply wp_app. unfold asm_mul_ex_i3.
  do 21 xstep.
  apply wp_nil. apply KK; try assumption. clear KK.
  replace (x3 * val [y0; y1; y2; y3; y4; y5]) with (x3 * y0 + W * (x3 * y1 + W * (x3 * y2 + W * (x3 * y3 + W * (x3 * y4 + W * (x3 * y5)))))) by (unfold val; ring).
  gen_prod. rowlia (c10).
Qed.


Lemma asm_mul_ex_i4_ok : forall rest Q (vRAX vRBX vRCX vRDX vRSI vRDI vRBP vRSP vR8 vR9 a0 a1 a2 a3 a4 a5 x4 y0 y1 y2 y3 y4 y5 : Z) (f0 o0 : option Z) (m : Z -> Z),
  word x4 ->  word y0 ->  word y1 ->  word y2 ->  word y3 ->  word y4 ->  word y5 ->  word a0 ->  word a1 ->  word a2 ->  word a3 ->  word a4 ->  word a5 ->
  m (vRSI + 32) = x4 ->
  m (vRDI + 0) = y0 ->
  m (vRDI + 8) = y1 ->
  m (vRDI + 16) = y2 ->
  m (vRDI + 24) = y3 ->
  m (vRDI + 32) = y4 ->
  m (vRDI + 40) = y5 ->
  (forall (wRAX wRBX o0_ o1_ o2_ o3_ o4_ o5_ o6_ : Z) (f1 o1 : option Z),
    word o0_ -> word o1_ -> word o2_ -> word o3_ -> word o4_ -> word o5_ -> word o6_ ->
    val [o0_; o1_; o2_; o3_; o4_; o5_; o6_] = val [a0; a1; a2; a3; a4; a5] + x4 * val [y0; y1; y2; y3; y4; y5] ->
    wp rest (mkst (wRAX) (wRBX) (o6_) (x4) (vRSI) (vRDI) (vRBP) (vRSP) (vR8) (vR9) (o0_) (o1_) (o2_) (o3_) (o4_) (o5_) f1 o1 (m)) Q) ->
  wp (asm_mul_ex_i4 ++ rest) (mkst (vRAX) (vRBX) (vRCX) (vRDX) (vRSI) (vRDI) (vRBP) (vRSP) (vR8) (vR9) (a0) (a1) (a2) (a3) (a4) (a5) f0 o0 m) Q.
Proof.
  intros.
  match goal with H : context [wp rest _ _] |- _ => rename H into KK end.
  apply wp_app. unfold asm_mul_ex_i4.
  do 21 xstep.
  apply wp_nil. apply KK; try assumption. clear KK.
  replace (x4 * val [y0; y1; y2; y3; y4; y5]) with (x4 * y0 + W * (x4 * y1 + W * (x4 * y2 + W * (x4 * y3 + W * (x4 * y4 + W * (x4 * y5)))))) by (unfold val; ring).
  gen_prod. rowlia (c10).
Qed.


Lemma asm_mul_ex_i5_ok : forall rest Q (vRAX vRBX a5 vRDX vRSI vRDI vRBP vRSP vR8 vR9 vR10 a0 a1 a2 a3 a4 x5 y0 y1 y2 y3 y4 y5 : Z) (f0 o0 : option Z) (m : Z -> Z),
  word x5 ->  word y0 ->  word y1 ->  word y2 ->  word y3 ->  word y4 ->  word y5 ->  word a0 ->  word a1 ->  word a2 ->  word a3 ->  word a4 ->  word a5 ->
  m (vRSI + 40) = x5 ->
  m (vRDI + 0) = y0 ->
  m (vRDI + 8) = y1 ->
  m (vRDI + 16) = y2 ->
  m (vRDI + 24) = y3 ->
  m (vRDI + 32) = y4 ->
  m (vRDI + 40) = y5 ->
  (forall (o0_ o1_ o2_ o3_ o4_ o5_ o6_ : Z) ,
    word o0_ -> word o1_ -> word o2_ -> word o3_ -> word o4_ -> word o5_ -> word o6_ ->
    val [o0_; o1_; o2_; o3_; o4_; o5_; o6_] = val [a0; a1; a2; a3; a4; a5] + x5 * val [y0; y1; y2; y3; y4; y5] ->
    wp rest (mkst (0) (m (vRSP + 8)) (o5_) (x5) (o6_) (m vRSP) (vRBP) (vRSP + 8 + 8 - 8) (vR8) (vR9) (vR10) (o0_) (o1_) (o2_) (o3_) (o4_) (Some 0) (Some 0) (upd m (vRSP + 8 + 8 - 8) o6_)) Q) ->
  wp (asm_mul_ex_i5 ++ rest) (mkst (vRAX) (vRBX) (a5) (vRDX) (vRSI) (vRDI) (vRBP) (vRSP) (vR8) (vR9) (vR10) (a0) (a1) (a2) (a3) (a4) f0 o0 m) Q.
Proof.
  intros.
  match goal with H : context [wp rest _ _] |- _ => rename H into KK end.
  apply wp_app. unfold asm_mul_ex_i5.
  do 25 xstep.
  apply wp_nil. apply KK; try assumption. clear KK.
  replace (x5 * val [y0; y1; y2; y3; y4; y5]) with (x5 * y0 + W * (x5 * y1 + W * (x5 * y2 + W * (x5 * y3 + W * (x5 * y4 + W * (x5 * y5)))))) by (unfold val; ring).
  gen_prod. rowlia (c10 + c11).
Qed.


Lemma low_numx : forall q h u0 lo hi s c, q + W * h = u0 * 9940570264628428797 ->
  lo + W * hi = q * 13402431016077863595 -> s + W * c = u0 + lo + 0 -> word s -> s = 0.
Proof. intros. unfold word, W in *. lia. Qed.
Lemma carry_num : forall s t c a b k o, s = 0 -> t + W * a = s + s + c -> k + W * b = t + 0 + o ->
  bit c -> bit o -> bit a -> bit b -> word t -> word k -> k = c + o.
Proof. intros. unfold word, bit, W in *. lia. Qed.
Ltac rowredx :=
  match goal with
  | E : ?q + W * ?h = ?u0 * 9940570264628428797, E0 : ?lo + W * ?hi = ?q * 13402431016077863595,
    E1 : ?s + W * ?c = ?u0 + ?lo + 0 |- _ =>
      let L := fresh "L" in
      assert (L : s = 0) by (apply (low_numx _ _ _ _ _ _ _ E E0 E1); assumption); clear E;
      try match goal with
      | E2 : ?t + W * ?a = s + s + ?c, E3 : ?k + W * ?b = ?t + 0 + ?o |- _ =>
          pose proof (carry_num s t c a b k o L E2 E3 ltac:(assumption) ltac:(assumption) ltac:(assumption)
             ltac:(assumption) ltac:(assumption) ltac:(assumption)); clear E2 E3
      end
  end.
Ltac rowredx_eq := rowredx; clear_bounds; unfold val, MODULUS, W in *; lia.

Lemma asm_mul_ex_red_i0_ok : forall rest Q (vRAX u0 vRCX vRDX vRSI u1 vRBP vRSP u2 u3 u4 u5 u6 vR13 vR14 vR15 : Z) (f0 o0 : option Z) (m : Z -> Z),
  word u0 ->  word u1 ->  word u2 ->  word u3 ->  word u4 ->  word u5 ->  word u6 ->
  m (vRBP + 0) = 9940570264628428797 ->
  m (vRBP + -8) = 13402431016077863595 ->
  m (vRBP + -16) = 2210141511517208575 ->
  m (vRBP + -24) = 7435674573564081700 ->
  m (vRBP + -32) = 7239337960414712511 ->
  m (vRBP + -40) = 5412103778470702295 ->
  m (vRBP + -48) = 1873798617647539866 ->
  (forall (wRSI o1_ o2_ o3_ o4_ o5_ o6_ k_ q : Z) ,
    word o1_ -> word o2_ -> word o3_ -> word o4_ -> word o5_ -> word o6_ -> word q ->
    bit k_ ->
    W * val [o1_; o2_; o3_; o4_; o5_; o6_; k_] = val [u0; u1; u2; u3; u4; u5; u6] + q * MODULUS ->
    wp rest (mkst (0) (k_) (vRCX) (q) (wRSI) (o1_) (vRBP) (vRSP) (o2_) (o3_) (o4_) (o5_) (o6_) (vR13) (vR14) (vR15) (Some 0) (Some 0) (m)) Q) ->
  wp (asm_mul_ex_red_i0 ++ rest) (mkst (vRAX) (u0) (vRCX) (vRDX) (vRSI) (u1) (vRBP) (vRSP) (u2) (u3) (u4) (u5) (u6) (vR13) (vR14) (vR15) (Some 0) (Some 0) m) Q.
Proof.
  intros.
  match goal with H : context [wp rest _ _] |- _ => rename H into KK end.
  apply wp_app. unfold asm_mul_ex_red_i0.
  do 25 xstep.
  apply wp_nil. eapply KK; try eassumption; clear KK; [|rowredx_eq].
  assert (EQ : W * val [s1; s3; s5; s7; s9; s11; s13] = val [u0; u1; u2; u3; u4; u5; u6] + lo * MODULUS) by rowredx_eq.
  clear_eqs. unfold val, word, bit, MODULUS, W in *. lia.
Qed.


Lemma asm_mul_ex_red_i1_ok : forall rest Q (vRAX k vRCX vRDX vRSI u0 vRBP vRSP u1 u2 u3 u4 u5 u6 vR14 vR15 : Z) (f0 o0 : option Z) (m : Z -> Z),
  word u0 ->  word u1 ->  word u2 ->  word u3 ->  word u4 ->  word u5 ->  word u6 ->
  m (vRBP + 0) = 9940570264628428797 ->
  m (vRBP + -8) = 13402431016077863595 ->
  m (vRBP + -16) = 2210141511517208575 ->
  m (vRBP + -24) = 7435674573564081700 ->
  m (vRBP + -32) = 7239337960414712511 ->
  m (vRBP + -40) = 5412103778470702295 ->
  m (vRBP + -48) = 1873798617647539866 ->
  bit k ->
  (forall (wRSI o1_ o2_ o3_ o4_ o5_ o6_ k_ q : Z) ,
    word o1_ -> word o2_ -> word o3_ -> word o4_ -> word o5_ -> word o6_ -> word q ->
    bit k_ ->
    W * val [o1_; o2_; o3_; o4_; o5_; o6_; k_] = val [u0; u1; u2; u3; u4; u5; u6] + W * (W * (W * (W * (W * (W * k))))) + q * MODULUS ->
    wp rest (mkst (0) (k) (vRCX) (q) (wRSI) (k_) (vRBP) (vRSP) (o1_) (o2_) (o3_) (o4_) (o5_) (o6_) (vR14) (vR15) (Some 0) (Some 0) (m)) Q) ->
  wp (asm_mul_ex_red_i1 ++ rest) (mkst (vRAX) (k) (vRCX) (vRDX) (vRSI) (u0) (vRBP) (vRSP) (u1) (u2) (u3) (u4) (u5) (u6) (vR14) (vR15) (Some 0) (Some 0) m) Q.
Proof.
  intros.
  match goal with H : context [wp rest _ _] |- _ => rename H into KK end.
  apply wp_app. unfold asm_mul_ex_red_i1.
  do 25 xstep.
  apply wp_nil. eapply KK; try eassumption; clear KK; [|rowredx_eq].
  assert (EQ : W * val [s1; s3; s5; s7; s9; s11; s13] = val [u0; u1; u2; u3; u4; u5; u6] + W * (W * (W * (W * (W * (W * k))))) + lo * MODULUS) by rowredx_eq.
  clear_eqs. unfold val, word, bit, MODULUS, W in *. lia.
Qed.


Lemma asm_mul_ex_red_i2_ok : forall rest Q (vRAX vRBX vRCX vRDX vRSI k vRBP vRSP u0 u1 u2 u3 u4 u5 u6 vR15 : Z) (f0 o0 : option Z) (m : Z -> Z),
  word u0 ->  word u1 ->  word u2 ->  word u3 ->  word u4 ->  word u5 ->  word u6 ->
  m (vRBP + 0) = 9940570264628428797 ->
  m (vRBP + -8) = 13402431016077863595 ->
  m (vRBP + -16) = 2210141511517208575 ->
  m (vRBP + -24) = 7435674573564081700 ->
  m (vRBP + -32) = 7239337960414712511 ->
  m (vRBP + -40) = 5412103778470702295 ->
  m (vRBP + -48) = 1873798617647539866 ->
  bit k ->
  (forall (wRSI o1_ o2_ o3_ o4_ o5_ o6_ k_ q : Z) ,
    word o1_ -> word o2_ -> word o3_ -> word o4_ -> word o5_ -> word o6_ -> word q ->
    bit k_ ->
    W * val [o1_; o2_; o3_; o4_; o5_; o6_; k_] = val [u0; u1; u2; u3; u4; u5; u6] + W * (W * (W * (W * (W * (W * k))))) + q * MODULUS ->
    wp rest (mkst (0) (vRBX) (vRCX) (q) (wRSI) (k) (vRBP) (vRSP) (k_) (o1_) (o2_) (o3_) (o4_) (o5_) (o6_) (vR15) (Some 0) (Some 0) (m)) Q) ->
  wp (asm_mul_ex_red_i2 ++ rest) (mkst (vRAX) (vRBX) (vRCX) (vRDX) (vRSI) (k) (vRBP) (vRSP) (u0) (u1) (u2) (u3) (u4) (u5) (u6) (vR15) (Some 0) (Some 0) m) Q.
Proof.
  intros.
  match goal with H : context [wp rest _ _] |- _ => rename H into KK end.
  apply wp_app. unfold asm_mul_ex_red_i2.
  do 25 xstep.
  apply wp_nil. eapply KK; try eassumption; clear KK; [|rowredx_eq].
  assert (EQ : W * val [s1; s3; s5; s7; s9; s11; s13] = val [u0; u1; u2; u3; u4; u5; u6] + W * (W * (W * (W * (W * (W * k))))) + lo * MODULUS) by rowredx_eq.
  clear_eqs. unfold val, word, bit, MODULUS, W in *. lia.
Qed.


Lemma asm_mul_ex_red_i3_ok : forall rest Q (vRAX vRBX vRCX vRDX vRSI vRDI vRBP vRSP k u0 u1 u2 u3 u4 u5 u6 : Z) (f0 o0 : option Z) (m : Z -> Z),
  word u0 ->  word u1 ->  word u2 ->  word u3 ->  word u4 ->  word u5 ->  word u6 ->
  m (vRBP + 0) = 9940570264628428797 ->
  m (vRBP + -8) = 13402431016077863595 ->
  m (vRBP + -16) = 2210141511517208575 ->
  m (vRBP + -24) = 7435674573564081700 ->
  m (vRBP + -32) = 7239337960414712511 ->
  m (vRBP + -40) = 5412103778470702295 ->
  m (vRBP + -48) = 1873798617647539866 ->
  bit k ->
  (forall (wRSI o1_ o2_ o3_ o4_ o5_ o6_ k_ q : Z) ,
    word o1_ -> word o2_ -> word o3_ -> word o4_ -> word o5_ -> word o6_ -> word q ->
    bit k_ ->
    W * val [o1_; o2_; o3_; o4_; o5_; o6_; k_] = val [u0; u1; u2; u3; u4; u5; u6] + W * (W * (W * (W * (W * (W * k))))) + q * MODULUS ->
    wp rest (mkst (0) (vRBX) (vRCX) (q) (wRSI) (vRDI) (vRBP) (vRSP) (k) (k_) (o1_) (o2_) (o3_) (o4_) (o5_) (o6_) (Some 0) (Some 0) (m)) Q) ->
  wp (asm_mul_ex_red_i3 ++ rest) (mkst (vRAX) (vRBX) (vRCX) (vRDX) (vRSI) (vRDI) (vRBP) (vRSP) (k) (u0) (u1) (u2) (u3) (u4) (u5) (u6) (Some 0) (Some 0) m) Q.
Proof.
  intros.
  match goal with H : context [wp rest _ _] |- _ => rename H into KK end.
  apply wp_app. unfold asm_mul_ex_red_i3.
  do 25 xstep.
  apply wp_nil. eapply KK; try eassumption; clear KK; [|rowredx_eq].
  assert (EQ : W * val [s1; s3; s5; s7; s9; s11; s13] = val [u0; u1; u2; u3; u4; u5; u6] + W * (W * (W * (W * (W * (W * k))))) + lo * MODULUS) by rowredx_eq.
  clear_eqs. unfold val, word, bit, MODULUS, W in *. lia.
Qed.


Lemma asm_mul_ex_red_i4_ok : forall rest Q (vRAX vRBX u6 vRDX vRSI vRDI vRBP vRSP vR8 k u0 u1 u2 u3 u4 u5 : Z) (f0 o0 : option Z) (m : Z -> Z),
  word u0 ->  word u1 ->  word u2 ->  word u3 ->  word u4 ->  word u5 ->  word u6 ->
  m (vRBP + 0) = 9940570264628428797 ->
  m (vRBP + -8) = 13402431016077863595 ->
  m (vRBP + -16) = 2210141511517208575 ->
  m (vRBP + -24) = 7435674573564081700 ->
  m (vRBP + -32) = 7239337960414712511 ->
  m (vRBP + -40) = 5412103778470702295 ->
  m (vRBP + -48) = 1873798617647539866 ->
  bit k ->
  (forall (wRSI o1_ o2_ o3_ o4_ o5_ o6_ k_ q : Z) ,
    word o1_ -> word o2_ -> word o3_ -> word o4_ -> word o5_ -> word o6_ -> word q ->
    bit k_ ->
    W * val [o1_; o2_; o3_; o4_; o5_; o6_; k_] = val [u0; u1; u2; u3; u4; u5; u6] + W * (W * (W * (W * (W * (W * k))))) + q * MODULUS ->
    wp rest (mkst (0) (vRBX) (o6_) (q) (wRSI) (vRDI) (vRBP) (vRSP) (vR8) (k) (k_) (o1_) (o2_) (o3_) (o4_) (o5_) (Some 0) (Some 0) (m)) Q) ->
  wp (asm_mul_ex_red_i4 ++ rest) (mkst (vRAX) (vRBX) (u6) (vRDX) (vRSI) (vRDI) (vRBP) (vRSP) (vR8) (k) (u0) (u1) (u2) (u3) (u4) (u5) (Some 0) (Some 0) m) Q.
Proof.
  intros.
  match goal with H : context [wp rest _ _] |- _ => rename H into KK end.
  apply wp_app. unfold asm_mul_ex_red_i4.
  do 25 xstep.
  apply wp_nil. eapply KK; try eassumption; clear KK; [|rowredx_eq].
  assert (EQ : W * val [s1; s3; s5; s7; s9; s11; s13] = val [u0; u1; u2; u3; u4; u5; u6] + W * (W * (W * (W * (W * (W * k))))) + lo * MODULUS) by rowredx_eq.
  clear_eqs. unfold val, word, bit, MODULUS, W in *. lia.
Qed.


Lemma asm_mul_ex_red_i5_ok : forall rest Q (vRAX vRBX u5 vRDX vRSI vRDI vRBP vRSP vR8 vR9 k u0 u1 u2 u3 u4 u6 : Z) (f0 o0 : option Z) (m : Z -> Z),
  word u0 ->  word u1 ->  word u2 ->  word u3 ->  word u4 ->  word u5 ->  word u6 ->
  m (vRBP + 0) = 9940570264628428797 ->
  m (vRBP + -8) = 13402431016077863595 ->
  m (vRBP + -16) = 2210141511517208575 ->
  m (vRBP + -24) = 7435674573564081700 ->
  m (vRBP + -32) = 7239337960414712511 ->
  m (vRBP + -40) = 5412103778470702295 ->
  m (vRBP + -48) = 1873798617647539866 ->
  m vRSP = u6 ->
  bit k ->
  (forall (wRAX wRSI wR11 o1_ o2_ o3_ o4_ o5_ o6_ k_ q : Z) (f1 o1 : option Z),
    word o1_ -> word o2_ -> word o3_ -> word o4_ -> word o5_ -> word o6_ -> word q ->
    bit k_ ->
    W * val [o1_; o2_; o3_; o4_; o5_; o6_; k_] = val [u0; u1; u2; u3; u4; u5; u6] + W * (W * (W * (W * (W * (W * k))))) + q * MODULUS ->
    wp rest (mkst (wRAX) (o6_) (o5_) (q) (wRSI) (vRDI) (vRBP) (vRSP + 8) (vR8) (vR9) (k) (wR11) (o1_) (o2_) (o3_) (o4_) f1 o1 (m)) Q) ->
  wp (asm_mul_ex_red_i5 ++ rest) (mkst (vRAX) (vRBX) (u5) (vRDX) (vRSI) (vRDI) (vRBP) (vRSP) (vR8) (vR9) (k) (u0) (u1) (u2) (u3) (u4) (Some 0) (Some 0) m) Q.
Proof.
  intros.
  match goal with H : context [wp rest _ _] |- _ => rename H into KK end.
  apply wp_app. unfold asm_mul_ex_red_i5.
  do 22 xstep.
  apply wp_nil. eapply KK with (k_ := c10 + c11); try eassumption; clear KK; [|rowredx_eq].
  assert (EQ : W * val [s1; s3; s5; s7; s9; s11; c10 + c11] = val [u0; u1; u2; u3; u4; u5; u6] + W * (W * (W * (W * (W * (W * k))))) + lo * MODULUS) by rowredx_eq.
  clear_eqs. unfold val, word, bit, MODULUS, W in *. lia.
Qed.


Lemma NINV_ok : (MODULUS * NINV) mod R384 = R384 - 1.
Proof. vm_compute. reflexivity. Qed.
Lemma fp_mul_char : forall x y q u k,
  0 <= q < R384 -> 0 <= u < R384 ->
  R384 * (u + R384 * k) = x * y + q * MODULUS ->
  fp_mul x y = if u <? MODULUS then u else u - MODULUS.
Proof.
  intros x y q u k Hq Hu E. unfold fp_mul.
  assert (RP : 0 < R384) by reflexivity.
  assert (Q : (x * y * NINV) mod R384 = q).
  { pose proof (Z.div_mod (MODULUS * NINV) R384 ltac:(discriminate)) as D. rewrite NINV_ok in D.
    revert D. generalize (MODULUS * NINV / R384). intros d D.
    symmetry. apply (Z.mod_unique (x * y * NINV) R384 ((u + R384 * k) * NINV - q * (d + 1))).
    - left. exact Hq.
    - replace (x * y) with (R384 * (u + R384 * k) - q * MODULUS) by lia.
      transitivity (R384 * (u + R384 * k) * NINV - q * (MODULUS * NINV)); [ring|].
      rewrite D. ring. }
  cbv zeta. rewrite Q, <- E.
  rewrite (Z.mul_comm R384 (u + R384 * k)), Z.div_mul by discriminate.
  replace ((u + R384 * k) mod R384) with u; [reflexivity|].
  apply (Z.mod_unique (u + R384 * k) R384 k u); [left; exact Hu|ring].
Qed.
Lemma val6_split : forall x0 x1 x2 x3 x4 x5 Y,
  val [x0; x1; x2; x3; x4; x5] * Y =
  x0 * Y + W * (x1 * Y + W * (x2 * Y + W * (x3 * Y + W * (x4 * Y + W * (x5 * Y))))).
Proof. intros. unfold val. ring. Qed.
