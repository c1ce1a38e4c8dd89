(** Field arithmetic on machine integers, used only inside proofs to evaluate long computations on the curves. *)
From Coq Require Import ZArith List Bool Lia Field Uint63.
From Verif Require Import SpecField FieldProof TowerProof TowerProof2 ModelCurve SpecCurve CurveRefine CurveInst.
Import ListNotations.
Local Open Scope Z_scope.

Definition msk : int := Eval vm_compute in of_Z (2 ^ 28 - 1).
Definition zl (l : list int) : Z := fold_right (fun x acc => to_Z x + 2 ^ 28 * acc) 0 l.
Fixpoint lzr (n : nat) (z : Z) : list int := match n with O => [] | S n => of_Z (z mod 2 ^ 28) :: lzr n (z / 2 ^ 28) end.
Definition lz (z : Z) : list int := lzr 14 z.
Definition p63 : list int := Eval vm_compute in lz modulus.
Definition pp63 : list int := Eval vm_compute in lz (2 * modulus).
Definition npp63 : list int := Eval vm_compute in lz (2 ^ 392 - 1 - 2 * modulus).
(** -1/p mod 2^28 *)
Definition pinv63 : int := Eval vm_compute in of_Z 0xffcfffd.
Definition one63 : list int := Eval vm_compute in lz (2 ^ 392 mod modulus).
Definition zero63 : list int := Eval vm_compute in lz 0.
Fixpoint row (x m : int) (b p t : list int) : list int :=
  match b, p, t with
  | b0 :: b, p0 :: p, t0 :: t => (t0 + x * b0 + m * p0)%uint63 :: row x m b p t
  | _, _, _ => [0%uint63]
  end.
Definition mstep (b t : list int) (x : int) : list int :=
  let m := (((hd 0%uint63 t + x * hd 0%uint63 b) * pinv63) land msk)%uint63 in
  match row x m b p63 t with
  | s0 :: s1 :: s => (s1 + (s0 >> 28))%uint63 :: s
  | _ => []
  end.
(** carry propagation; the carry out is returned *)
Fixpoint norm (c : int) (l : list int) : list int * int :=
  match l with
  | [] => ([], c)
  | x :: l => let s := (x + c)%uint63 in let '(r, c) := norm (s >> 28)%uint63 l in ((s land msk)%uint63 :: r, c)
  end.
Fixpoint add63l (a b : list int) : list int := match a, b with x :: a, y :: b => (x + y)%uint63 :: add63l a b | _, _ => [] end.
Definition comp63 (a : list int) : list int := map (fun x => (msk - x)%uint63) a.
Definition mul63 (a b : list int) : list int := fst (norm 0%uint63 (fold_left (mstep b) a zero63)).
Definition add63 (a b : list int) : list int :=
  let s := add63l a b in
  let '(r, c) := norm 1%uint63 (add63l s npp63) in
  if (c =? 0)%uint63 then fst (norm 0%uint63 s) else r.
Definition sub63 (a b : list int) : list int :=
  let s := add63l a (comp63 b) in
  let '(r, c) := norm 1%uint63 s in
  if (c =? 0)%uint63 then fst (norm 1%uint63 (add63l s pp63)) else r.
Fixpoint eql63 (a b : list int) : bool := match a, b with x :: a, y :: b => (x =? y)%uint63 && eql63 a b | [], [] => true | _, _ => false end.
Definition isz63 (a : list int) : bool := eql63 a zero63 || eql63 a p63.
Definition eq63 (a b : list int) : bool := isz63 (sub63 a b).

(** ** correctness *)
Definition bnd (B : Z) (l : list int) : Prop := Forall (fun x => to_Z x < B) l.
Definition lim (l : list int) : Prop := length l = 14%nat /\ bnd (2 ^ 28) l.
Definition ok63 (l : list int) : Prop := lim l /\ zl l < 2 * modulus.
Lemma zl_cons x l : zl (x :: l) = to_Z x + 2 ^ 28 * zl l. Proof. reflexivity. Qed.
Lemma toZ_nn x : 0 <= to_Z x. Proof. apply to_Z_bounded. Qed.
Lemma zl_nn l : 0 <= zl l. Proof. induction l; [cbn; lia|rewrite zl_cons; pose proof (toZ_nn a); lia]. Qed.
Lemma bnd_cons B x l : bnd B (x :: l) <-> to_Z x < B /\ bnd B l. Proof. unfold bnd. split; [intros H; inversion H; auto|intros []; constructor; auto]. Qed.
Lemma zl_bnd l : bnd (2 ^ 28) l -> zl l < 2 ^ (28 * Z.of_nat (length l)).
Proof.
  induction l; intros H; [cbn; lia|]. apply bnd_cons in H. destruct H as [H1 H2]. specialize (IHl H2). rewrite zl_cons.
  change (length (a :: l)) with (S (length l)).
  replace (28 * Z.of_nat (S (length l))) with (28 + 28 * Z.of_nat (length l)) by lia. rewrite Z.pow_add_r by lia. lia.
Qed.
Lemma wB_eq : wB = 2 ^ 63. Proof. reflexivity. Qed.
Lemma add_exact x y : to_Z x + to_Z y < 2 ^ 63 -> to_Z (x + y)%uint63 = to_Z x + to_Z y.
Proof. intros H. rewrite add_spec, wB_eq, Z.mod_small; auto. pose proof (toZ_nn x). pose proof (toZ_nn y). lia. Qed.
Lemma mul_exact x y : to_Z x * to_Z y < 2 ^ 63 -> to_Z (x * y)%uint63 = to_Z x * to_Z y.
Proof. intros H. rewrite mul_spec, wB_eq, Z.mod_small; auto. pose proof (toZ_nn x). pose proof (toZ_nn y). split; [apply Z.mul_nonneg_nonneg; auto|lia]. Qed.
Lemma msk_Z : to_Z msk = Z.ones 28. Proof. vm_compute. reflexivity. Qed.
Lemma land_msk x : to_Z (x land msk)%uint63 = to_Z x mod 2 ^ 28.
Proof. rewrite land_spec', msk_Z, Z.land_ones by lia. reflexivity. Qed.
Lemma lsr28 x : to_Z (x >> 28)%uint63 = to_Z x / 2 ^ 28.
Proof. rewrite lsr_spec. reflexivity. Qed.
Lemma mul28 x y : 0 <= x < 2 ^ 28 -> 0 <= y < 2 ^ 28 -> 0 <= x * y < 2 ^ 56.
Proof.
  intros Hx Hy. split; [apply Z.mul_nonneg_nonneg; lia|]. change (2 ^ 56) with (2 ^ 28 * 2 ^ 28).
  destruct (Z.eq_dec x 0) as [->|]; [lia|]. apply Z.mul_lt_mono_nonneg; lia.
Qed.
Lemma row_ok x m B : to_Z x < 2 ^ 28 -> to_Z m < 2 ^ 28 -> 0 <= B -> B + 2 ^ 57 < 2 ^ 63 -> forall b p t, length p = length b -> length t = length b -> bnd (2 ^ 28) b -> bnd (2 ^ 28) p -> bnd B t ->
  length (row x m b p t) = S (length b) /\ bnd (B + 2 ^ 57) (row x m b p t) /\ zl (row x m b p t) = zl t + to_Z x * zl b + to_Z m * zl p.
Proof.
  intros Hx Hm HB0 HB. induction b as [|b0 b IH]; intros [|p0 p] [|t0 t] Lp Lt Hb Hp Ht; cbn in Lp, Lt; try lia.
  - split; [reflexivity|]. split; [|cbn; lia]. constructor; [|constructor]. change (to_Z 0%uint63) with 0. lia.
  - apply bnd_cons in Hb, Hp, Ht. destruct Hb as [Hb0 Hb], Hp as [Hp0 Hp], Ht as [Ht0 Ht].
    destruct (IH p t ltac:(lia) ltac:(lia) Hb Hp Ht) as (I1 & I2 & I3). cbn [row].
    pose proof (toZ_nn x). pose proof (toZ_nn m). pose proof (toZ_nn b0). pose proof (toZ_nn p0). pose proof (toZ_nn t0).
    pose proof (mul28 (to_Z x) (to_Z b0) ltac:(lia) ltac:(lia)) as M1. pose proof (mul28 (to_Z m) (to_Z p0) ltac:(lia) ltac:(lia)) as M2.
    assert (E : to_Z (t0 + x * b0 + m * p0)%uint63 = to_Z t0 + to_Z x * to_Z b0 + to_Z m * to_Z p0).
    { assert (E1 : to_Z (x * b0)%uint63 = to_Z x * to_Z b0) by (apply mul_exact; lia).
      assert (E2 : to_Z (m * p0)%uint63 = to_Z m * to_Z p0) by (apply mul_exact; lia).
      assert (E3 : to_Z (t0 + x * b0)%uint63 = to_Z t0 + to_Z x * to_Z b0) by (rewrite add_exact; rewrite E1; lia).
      rewrite add_exact; rewrite E3, E2; lia. }
    split; [cbn [length]; lia|]. split; [apply bnd_cons; split; [rewrite E; lia|exact I2]|].
    rewrite !zl_cons, I3, E. ring.
Qed.
Lemma pinv_ok : (to_Z pinv63 * modulus + 1) mod 2 ^ 28 = 0. Proof. vm_compute. reflexivity. Qed.
Lemma p63_lim : lim p63. Proof. split; [reflexivity|]. repeat (constructor; [reflexivity|]). constructor. Qed.
Lemma p63_zl : zl p63 = modulus. Proof. vm_compute. reflexivity. Qed.
Lemma p63_hd : exists l, p63 = hd 0%uint63 p63 :: l /\ to_Z (hd 0%uint63 p63) = modulus mod 2 ^ 28.
Proof. eexists. split; reflexivity. Qed.
Lemma mont_low (t0 xb pi m p : Z) : (pi * p + 1) mod 2 ^ 28 = 0 -> m = ((t0 + xb) * pi) mod 2 ^ 28 -> (t0 + xb + m * p) mod 2 ^ 28 = 0.
Proof.
  intros H ->. rewrite Z.add_mod, Z.mul_mod_idemp_l by lia. rewrite <- Z.add_mod by lia.
  replace (t0 + xb + (t0 + xb) * pi * p) with ((t0 + xb) * (pi * p + 1)) by ring.
  rewrite Z.mul_mod, H, Z.mul_0_r by lia. reflexivity.
Qed.
Lemma zl_mod b0 b : zl (b0 :: b) mod 2 ^ 28 = to_Z b0 mod 2 ^ 28.
Proof. rewrite zl_cons, Z.mul_comm, Z.mod_add by lia. reflexivity. Qed.
Lemma mstep_ok b t x k : lim b -> length t = 14%nat -> bnd (k * 2 ^ 58 + 1) t -> 0 <= k <= 13 -> to_Z x < 2 ^ 28 ->
  length (mstep b t x) = 14%nat /\ bnd ((k + 1) * 2 ^ 58 + 1) (mstep b t x) /\
  exists m, 0 <= m < 2 ^ 28 /\ 2 ^ 28 * zl (mstep b t x) = zl t + to_Z x * zl b + m * modulus.
Proof.
  intros [Lb Bb] Lt Bt Hk Hx. unfold mstep.
  set (m := (((hd 0%uint63 t + x * hd 0%uint63 b) * pinv63) land msk)%uint63).
  assert (Hm : 0 <= to_Z m < 2 ^ 28) by (unfold m; rewrite land_msk; apply Z.mod_pos_bound; lia).
  pose proof p63_lim as [Lp Bp].
  destruct (row_ok x m (k * 2 ^ 58 + 1) Hx (proj2 Hm) ltac:(lia) ltac:(lia) b p63 t ltac:(congruence) ltac:(congruence) Bb Bp Bt) as (R1 & R2 & R3).
  assert (Z0 : zl (row x m b p63 t) mod 2 ^ 28 = 0).
  { rewrite R3, p63_zl. destruct b as [|b0 b]; [discriminate|]. destruct t as [|t0 t]; [discriminate|]. cbn [hd] in m.
    apply bnd_cons in Bb, Bt. destruct Bb as [Bb0 _], Bt as [Bt0 _].
    pose proof (mul28 (to_Z x) (to_Z b0) ltac:(split; [apply toZ_nn|lia]) ltac:(split; [apply toZ_nn|lia])) as M1.
    replace (zl (t0 :: t) + to_Z x * zl (b0 :: b) + to_Z m * modulus) with (to_Z t0 + to_Z x * to_Z b0 + to_Z m * modulus + (zl t + to_Z x * zl b) * 2 ^ 28)
      by (rewrite !zl_cons; ring).
    rewrite Z.mod_add by lia.
    apply (mont_low _ _ (to_Z pinv63)); [apply pinv_ok|]. unfold m. rewrite land_msk, mul_spec.
    change (2 ^ 28) with (2 ^ 28) at 1. assert (E1 : to_Z (x * b0)%uint63 = to_Z x * to_Z b0) by (apply mul_exact; lia).
    rewrite add_exact, E1 by (rewrite E1; lia).
    rewrite wB_eq. change (2 ^ 63) with (2 ^ 28 * 2 ^ 35). rewrite Z.rem_mul_r by lia. rewrite (Z.mul_comm (2 ^ 28)), Z.mod_add, Z.mod_mod by lia. reflexivity. }
  destruct (row x m b p63 t) as [|s0 [|s1 s]]; [cbn in R1; lia|cbn in R1; lia|]. cbn in R1.
  apply bnd_cons in R2. destruct R2 as [S0 R2]. apply bnd_cons in R2. destruct R2 as [S1 R2].
  rewrite zl_mod in Z0. pose proof (toZ_nn s0). pose proof (toZ_nn s1).
  assert (D : to_Z s0 = 2 ^ 28 * (to_Z s0 / 2 ^ 28)) by (pose proof (Z.div_mod (to_Z s0) (2 ^ 28) ltac:(lia)); lia).
  assert (Dk : 0 <= to_Z s0 / 2 ^ 28 < 2 ^ 57). { split; [apply Z.div_pos; lia|apply Z.div_lt_upper_bound; lia]. }
  assert (E : to_Z (s1 + (s0 >> 28))%uint63 = to_Z s1 + to_Z s0 / 2 ^ 28) by (rewrite add_exact; rewrite lsr28; lia).
  split; [cbn [length]; lia|]. split.
  - apply bnd_cons. split; [rewrite E; lia|]. eapply Forall_impl; [|exact R2]. cbn. intros y Hy. lia.
  - exists (to_Z m). split; [exact Hm|]. rewrite p63_zl in R3. rewrite <- R3, !zl_cons, E. lia.
Qed.
Lemma mfold_ok b : lim b -> forall a k t, bnd (2 ^ 28) a -> length t = 14%nat -> bnd (k * 2 ^ 58 + 1) t -> 0 <= k -> k + Z.of_nat (length a) <= 14 ->
  length (fold_left (mstep b) a t) = 14%nat /\ bnd ((k + Z.of_nat (length a)) * 2 ^ 58 + 1) (fold_left (mstep b) a t) /\
  exists m, 0 <= m < 2 ^ (28 * Z.of_nat (length a)) /\ 2 ^ (28 * Z.of_nat (length a)) * zl (fold_left (mstep b) a t) = zl t + zl a * zl b + m * modulus.
Proof.
  intros Hb. induction a as [|x a IH]; intros k t Ha Lt Bt Hk Hl.
  - cbn [fold_left length]. change (Z.of_nat 0) with 0. rewrite Z.add_0_r. split; [auto|]. split; [auto|]. exists 0. change (2 ^ (28 * 0)) with 1. change (zl []) with 0. split; [lia|ring].
  - apply bnd_cons in Ha. destruct Ha as [Hx Ha]. cbn [length] in Hl.
    destruct (mstep_ok b t x k Hb Lt Bt ltac:(lia) Hx) as (L1 & B1 & m1 & M1 & E1).
    destruct (IH (k + 1) (mstep b t x) Ha L1 B1 ltac:(lia) ltac:(lia)) as (L2 & B2 & m2 & M2 & E2).
    cbn [fold_left]. split; [exact L2|]. split; [replace (k + Z.of_nat (length (x :: a))) with (k + 1 + Z.of_nat (length a)) by (cbn [length]; lia); exact B2|].
    exists (m1 + 2 ^ 28 * m2). change (length (x :: a)) with (S (length a)).
    replace (28 * Z.of_nat (S (length a))) with (28 + 28 * Z.of_nat (length a)) by lia. rewrite Z.pow_add_r by lia.
    split; [lia|]. rewrite <- (Z.mul_assoc (2 ^ 28) (2 ^ (28 * Z.of_nat (length a)))), E2, zl_cons.
    transitivity (2 ^ 28 * zl (mstep b t x) + 2 ^ 28 * (zl a * zl b + m2 * modulus)); [ring|]. rewrite E1. ring.
Qed.
Lemma norm_ok B : B < 2 ^ 62 -> forall l c, bnd B l -> to_Z c < 2 ^ 35 ->
  length (fst (norm c l)) = length l /\ bnd (2 ^ 28) (fst (norm c l)) /\ to_Z (snd (norm c l)) < 2 ^ 35 /\
  zl (fst (norm c l)) + 2 ^ (28 * Z.of_nat (length l)) * to_Z (snd (norm c l)) = zl l + to_Z c.
Proof.
  intros HB. induction l as [|x l IH]; intros c Bl Hc.
  - cbn [norm fst snd length]. split; [auto|]. split; [constructor|]. split; [auto|]. change (Z.of_nat 0) with 0. rewrite Z.mul_0_r. cbn [zl fold_right]. lia.
  - apply bnd_cons in Bl. destruct Bl as [Hx Bl]. cbn [norm].
    pose proof (toZ_nn x). pose proof (toZ_nn c).
    assert (E : to_Z (x + c)%uint63 = to_Z x + to_Z c) by (apply add_exact; lia).
    assert (Hc' : to_Z ((x + c) >> 28)%uint63 < 2 ^ 35). { rewrite lsr28, E. apply Z.div_lt_upper_bound; lia. }
    destruct (IH _ Bl Hc') as (I1 & I2 & I3 & I4). destruct (norm ((x + c) >> 28)%uint63 l) as [r c']. cbn [fst snd] in *.
    split; [cbn [length]; lia|]. split; [apply bnd_cons; split; [rewrite land_msk; apply Z.mod_pos_bound; lia|auto]|]. split; [exact I3|].
    change (length (x :: l)) with (S (length l)). replace (28 * Z.of_nat (S (length l))) with (28 + 28 * Z.of_nat (length l)) by lia.
    rewrite Z.pow_add_r by lia. rewrite !zl_cons, land_msk, E. rewrite lsr28, E in I4.
    pose proof (Z.div_mod (to_Z x + to_Z c) (2 ^ 28) ltac:(lia)) as D.
    transitivity ((to_Z x + to_Z c) mod 2 ^ 28 + 2 ^ 28 * (zl r + 2 ^ (28 * Z.of_nat (length l)) * to_Z c')); [ring|]. rewrite I4. lia.
Qed.
Lemma modulus_392 : 2 * modulus < 2 ^ 392 /\ 4 * modulus < 2 ^ 392. Proof. split; reflexivity. Qed.
Lemma mod_pos : 0 < modulus. Proof. reflexivity. Qed.
Lemma zero63_ok : length zero63 = 14%nat /\ bnd (0 * 2 ^ 58 + 1) zero63 /\ zl zero63 = 0.
Proof. split; [reflexivity|]. split; [repeat (constructor; [reflexivity|]); constructor|reflexivity]. Qed.
Lemma mont_bound (A B m p R u : Z) : 0 < p -> 4 * p < R -> 0 <= A < 2 * p -> 0 <= B < 2 * p -> 0 <= m < R -> R * u = A * B + m * p -> u < 2 * p.
Proof.
  intros Hp HR HA HB Hm E. assert (A * B <= (2 * p) * (2 * p)) by (apply Z.mul_le_mono_nonneg; lia).
  assert (m * p <= R * p) by (apply Z.mul_le_mono_nonneg_r; lia). assert (4 * p * p < R * p) by (apply Z.mul_lt_mono_pos_r; lia).
  apply (Z.mul_lt_mono_pos_l R); lia.
Qed.
Lemma mul63_ok a b : ok63 a -> ok63 b -> ok63 (mul63 a b) /\ exists m, 2 ^ 392 * zl (mul63 a b) = zl a * zl b + m * modulus.
Proof.
  intros [[La Ba] Va] [Hb Vb]. unfold mul63. destruct zero63_ok as (Z1 & Z2 & Z3).
  destruct (mfold_ok b Hb a 0 zero63 Ba Z1 Z2 ltac:(lia) ltac:(lia)) as (L1 & B1 & m & M1 & E1).
  rewrite La in B1, M1, E1. change (28 * Z.of_nat 14) with 392 in M1, E1.
  set (u := fold_left (mstep b) a zero63) in *.
  pose proof modulus_392 as [P1 P2]. pose proof mod_pos as P0. pose proof (zl_nn a). pose proof (zl_nn b).
  assert (U : zl u < 2 * modulus).
  { apply (mont_bound (zl a) (zl b) m modulus (2 ^ 392) (zl u) P0 P2); [lia|lia|exact M1|]. rewrite E1, Z3. ring. }
  destruct (norm_ok ((0 + Z.of_nat 14) * 2 ^ 58 + 1) ltac:(reflexivity) u 0%uint63 B1 ltac:(reflexivity)) as (N1 & N2 & N3 & N4).
  rewrite L1 in N4. change (28 * Z.of_nat 14) with 392 in N4. change (to_Z 0%uint63) with 0 in N4.
  pose proof (zl_nn (fst (norm 0%uint63 u))). pose proof (toZ_nn (snd (norm 0%uint63 u))). pose proof (zl_nn u).
  assert (C0 : to_Z (snd (norm 0%uint63 u)) = 0) by (clear - N4 U P1 H1 H2 H3; lia).
  rewrite C0 in N4. assert (V : zl (fst (norm 0%uint63 u)) = zl u) by lia.
  split; [split; [split; [congruence|exact N2]|lia]|]. exists m. rewrite V, E1, Z3. ring.
Qed.
Lemma add63l_ok A B : 0 <= A -> 0 <= B -> A + B < 2 ^ 62 -> forall a b, length a = length b -> bnd A a -> bnd B b ->
  length (add63l a b) = length a /\ bnd (A + B) (add63l a b) /\ zl (add63l a b) = zl a + zl b.
Proof.
  intros HA HB HAB. induction a as [|x a IH]; intros [|y b] L Ba Bb; cbn in L; try lia.
  - split; [reflexivity|]. split; [constructor|reflexivity].
  - apply bnd_cons in Ba, Bb. destruct Ba as [Hx Ba], Bb as [Hy Bb]. destruct (IH b ltac:(lia) Ba Bb) as (I1 & I2 & I3).
    cbn [add63l]. assert (E : to_Z (x + y)%uint63 = to_Z x + to_Z y) by (apply add_exact; lia).
    split; [cbn [length]; lia|]. split; [apply bnd_cons; split; [lia|auto]|]. rewrite !zl_cons, E, I3. ring.
Qed.
Lemma comp63_ok : forall a, bnd (2 ^ 28) a -> length (comp63 a) = length a /\ bnd (2 ^ 28) (comp63 a) /\ zl (comp63 a) + zl a = 2 ^ (28 * Z.of_nat (length a)) - 1.
Proof.
  induction a as [|x a IH]; intros B; [split; [reflexivity|]; split; [constructor|reflexivity]|].
  apply bnd_cons in B. destruct B as [Hx B]. destruct (IH B) as (I1 & I2 & I3). change (comp63 (x :: a)) with ((msk - x)%uint63 :: comp63 a).
  assert (E : to_Z (msk - x)%uint63 = 2 ^ 28 - 1 - to_Z x).
  { rewrite sub_spec, msk_Z. change (Z.ones 28) with (2 ^ 28 - 1). rewrite wB_eq. pose proof (toZ_nn x). rewrite Z.mod_small; lia. }
  split; [cbn [length]; lia|]. split; [apply bnd_cons; split; [pose proof (toZ_nn x); lia|auto]|].
  change (length (x :: a)) with (S (length a)). replace (28 * Z.of_nat (S (length a))) with (28 + 28 * Z.of_nat (length a)) by lia.
  rewrite Z.pow_add_r by lia. rewrite !zl_cons, E.
  transitivity (2 ^ 28 - 1 + 2 ^ 28 * (zl (comp63 a) + zl a)); [ring|]. rewrite I3. ring.
Qed.
Lemma npp63_lim : lim npp63 /\ zl npp63 = 2 ^ 392 - 1 - 2 * modulus.
Proof. split; [|vm_compute; reflexivity]. split; [reflexivity|]. repeat (constructor; [reflexivity|]). constructor. Qed.
Lemma pp63_lim : lim pp63 /\ zl pp63 = 2 * modulus.
Proof. split; [|vm_compute; reflexivity]. split; [reflexivity|]. repeat (constructor; [reflexivity|]). constructor. Qed.
Lemma norm14 B l c : B < 2 ^ 62 -> length l = 14%nat -> bnd B l -> to_Z c < 2 ^ 35 ->
  lim (fst (norm c l)) /\ 0 <= zl (fst (norm c l)) < 2 ^ 392 /\ 0 <= to_Z (snd (norm c l)) /\ zl (fst (norm c l)) + 2 ^ 392 * to_Z (snd (norm c l)) = zl l + to_Z c.
Proof.
  intros HB L Bl Hc. destruct (norm_ok B HB l c Bl Hc) as (N1 & N2 & N3 & N4). rewrite L in N1, N4. change (28 * Z.of_nat 14) with 392 in N4.
  split; [split; auto|]. split; [split; [apply zl_nn|]|]. { pose proof (zl_bnd _ N2) as H. rewrite N1 in H. exact H. } split; [apply toZ_nn|exact N4].
Qed.
Lemma add63_ok a b : ok63 a -> ok63 b -> ok63 (add63 a b) /\ exists m, zl (add63 a b) = zl a + zl b + m * modulus.
Proof.
  intros [[La Ba] Va] [[Lb Bb] Vb]. unfold add63. destruct npp63_lim as [[Ln Bn] Vn].
  destruct (add63l_ok (2 ^ 28) (2 ^ 28) ltac:(lia) ltac:(lia) ltac:(lia) a b ltac:(congruence) Ba Bb) as (S1 & S2 & S3). set (s := add63l a b) in *.
  destruct (add63l_ok (2 ^ 28 + 2 ^ 28) (2 ^ 28) ltac:(lia) ltac:(lia) ltac:(lia) s npp63 ltac:(congruence) S2 Bn) as (U1 & U2 & U3). set (u := add63l s npp63) in *.
  destruct (norm14 _ u 1%uint63 (ltac:(lia) : 2 ^ 28 + 2 ^ 28 + 2 ^ 28 < 2 ^ 62) ltac:(congruence) U2 ltac:(reflexivity)) as (N1 & N2 & N3 & N4).
  destruct (norm14 _ s 0%uint63 (ltac:(lia) : 2 ^ 28 + 2 ^ 28 < 2 ^ 62) ltac:(congruence) S2 ltac:(reflexivity)) as (M1 & M2 & M3 & M4).
  change (to_Z 1%uint63) with 1 in N4. change (to_Z 0%uint63) with 0 in M4.
  destruct (norm 1%uint63 u) as [r c]. destruct (norm 0%uint63 s) as [r0 c0]. cbn [fst snd] in *.
  pose proof modulus_392 as [P1 P2]. pose proof mod_pos as P0. pose proof (zl_nn a). pose proof (zl_nn b).
  destruct (eqb_spec c 0) as [EC EC']. destruct (c =? 0)%uint63.
  - specialize (EC eq_refl). subst c. change (to_Z 0%uint63) with 0 in N4, N3.
    assert (K : zl a + zl b < 2 * modulus) by lia. assert (zl r0 = zl a + zl b) by lia.
    split; [split; [exact M1|lia]|]. exists 0. lia.
  - assert (C1 : to_Z c <> 0). { intros X. assert (c = 0%uint63) by (apply to_Z_inj; exact X). specialize (EC' H1). discriminate. }
    assert (V : zl r = zl a + zl b - 2 * modulus) by lia. split; [split; [exact N1|lia]|]. exists (-2). lia.
Qed.
Lemma sub63_ok a b : ok63 a -> ok63 b -> ok63 (sub63 a b) /\ exists m, zl (sub63 a b) = zl a - zl b + m * modulus.
Proof.
  intros [[La Ba] Va] [[Lb Bb] Vb]. unfold sub63. destruct pp63_lim as [[Ln Bn] Vn].
  destruct (comp63_ok b Bb) as (C1 & C2 & C3). rewrite Lb in C3. change (28 * Z.of_nat 14) with 392 in C3.
  destruct (add63l_ok (2 ^ 28) (2 ^ 28) ltac:(lia) ltac:(lia) ltac:(lia) a (comp63 b) ltac:(congruence) Ba C2) as (S1 & S2 & S3). set (s := add63l a (comp63 b)) in *.
  destruct (add63l_ok (2 ^ 28 + 2 ^ 28) (2 ^ 28) ltac:(lia) ltac:(lia) ltac:(lia) s pp63 ltac:(congruence) S2 Bn) as (U1 & U2 & U3). set (u := add63l s pp63) in *.
  destruct (norm14 _ u 1%uint63 (ltac:(lia) : 2 ^ 28 + 2 ^ 28 + 2 ^ 28 < 2 ^ 62) ltac:(congruence) U2 ltac:(reflexivity)) as (N1 & N2 & N3 & N4).
  destruct (norm14 _ s 1%uint63 (ltac:(lia) : 2 ^ 28 + 2 ^ 28 < 2 ^ 62) ltac:(congruence) S2 ltac:(reflexivity)) as (M1 & M2 & M3 & M4).
  change (to_Z 1%uint63) with 1 in N4, M4.
  destruct (norm 1%uint63 u) as [r c]. destruct (norm 1%uint63 s) as [r0 c0]. cbn [fst snd] in *.
  pose proof modulus_392 as [P1 P2]. pose proof mod_pos as P0. pose proof (zl_nn a). pose proof (zl_nn b).
  destruct (eqb_spec c0 0) as [EC EC']. destruct (c0 =? 0)%uint63.
  - specialize (EC eq_refl). subst c0. change (to_Z 0%uint63) with 0 in M4, M3.
    assert (K : zl a < zl b) by lia. assert (zl r = zl a - zl b + 2 * modulus) by lia.
    split; [split; [exact N1|lia]|]. exists 2. lia.
  - assert (D1 : to_Z c0 <> 0). { intros X. assert (c0 = 0%uint63) by (apply to_Z_inj; exact X). specialize (EC' H1). discriminate. }
    assert (V : zl r0 = zl a - zl b) by lia. split; [split; [exact M1|lia]|]. exists 0. lia.
Qed.
Lemma eql63_ok : forall a b, length a = length b -> bnd (2 ^ 28) a -> bnd (2 ^ 28) b -> eql63 a b = true <-> zl a = zl b.
Proof.
  induction a as [|x a IH]; intros [|y b] L Ba Bb; cbn in L; try lia; [split; reflexivity|].
  apply bnd_cons in Ba, Bb. destruct Ba as [Hx Ba], Bb as [Hy Bb]. cbn [eql63]. rewrite andb_true_iff, eqb_spec, (IH b ltac:(lia) Ba Bb), !zl_cons.
  pose proof (toZ_nn x). pose proof (toZ_nn y). split; [intros [-> ->]; reflexivity|].
  intros E. assert (zl a = zl b) by lia. split; [apply to_Z_inj; lia|auto].
Qed.
Lemma isz63_ok a : ok63 a -> isz63 a = true <-> zl a mod modulus = 0.
Proof.
  intros [[La Ba] Va]. unfold isz63. rewrite orb_true_iff. pose proof p63_lim as [Lp Bp]. destruct zero63_ok as (Z1 & Z2 & Z3).
  rewrite (eql63_ok a p63 ltac:(congruence) Ba Bp). rewrite (eql63_ok a zero63 ltac:(congruence) Ba ltac:(eapply Forall_impl; [|exact Z2]; cbn; intros; lia)).
  rewrite Z3, p63_zl. pose proof (zl_nn a). pose proof mod_pos. split.
  - intros [->| ->]; [reflexivity|apply Z.mod_same; lia].
  - intros E. pose proof (Z.div_mod (zl a) modulus ltac:(lia)) as D. rewrite E in D.
    assert (0 <= zl a / modulus < 2). { split; [apply Z.div_pos; lia|apply Z.div_lt_upper_bound; lia]. }
    assert (C : zl a / modulus = 0 \/ zl a / modulus = 1) by lia. destruct C as [C|C]; rewrite C in D; lia.
Qed.
Lemma lzr_ok n : forall z, 0 <= z < 2 ^ (28 * Z.of_nat n) -> length (lzr n z) = n /\ bnd (2 ^ 28) (lzr n z) /\ zl (lzr n z) = z.
Proof.
  induction n as [|n IH]; intros z Hz.
  - cbn in Hz. split; [reflexivity|]. split; [constructor|cbn; lia].
  - replace (28 * Z.of_nat (S n)) with (28 + 28 * Z.of_nat n) in Hz by lia. rewrite Z.pow_add_r in Hz by lia.
    destruct (IH (z / 2 ^ 28)) as (I1 & I2 & I3). { split; [apply Z.div_pos; lia|apply Z.div_lt_upper_bound; lia]. }
    assert (E : to_Z (of_Z (z mod 2 ^ 28)) = z mod 2 ^ 28).
    { rewrite of_Z_spec, wB_eq. apply Z.mod_small. pose proof (Z.mod_pos_bound z (2 ^ 28) ltac:(lia)). lia. }
    cbn [lzr]. split; [cbn [length]; lia|]. split; [apply bnd_cons; split; [rewrite E; apply Z.mod_pos_bound; lia|auto]|].
    rewrite zl_cons, E, I3. pose proof (Z.div_mod z (2 ^ 28) ltac:(lia)). lia.
Qed.
Lemma lz_ok z : 0 <= z < modulus -> ok63 (lz z) /\ zl (lz z) = z.
Proof.
  intros Hz. pose proof modulus_392 as [P1 P2]. pose proof mod_pos. destruct (lzr_ok 14 z) as (I1 & I2 & I3). { change (28 * Z.of_nat 14) with 392. lia. }
  unfold lz. split; [|exact I3]. split; [split; auto|lia].
Qed.

(** 2^392 and its inverse modulo p *)
Definition RR : Fp := Fof (2 ^ 392).
Definition RI : Fp := Fof 0x1055a9f965d8eb2d58dea736114b9b5a29e226de2c8bd44589b2c24e13432f445bab6111a3ad18fad03433825937d5f3.
Lemma RI_ok : Fmul RI RR = F1.
Proof. unfold RI, RR, F1. rewrite <- Fof_mul. apply (Fof_hint _ _ 0xa0ceb06106feaafc9468b316fee268cf5819ecca0e8eb2db4c16ef2ef0c8e30b48286adb92d9d113e889f3fffcfffcfffd). vm_compute. reflexivity. Qed.
Definition d63 (l : list int) : Fp := Fmul (Fof (zl l)) RI.
Definition e63 (a : Fp) : list int := lz (fval (Fmul a RR)).
Lemma e63_ok a : ok63 (e63 a) /\ d63 (e63 a) = a.
Proof.
  unfold e63, d63. destruct (lz_ok (fval (Fmul a RR)) (fval_range _)) as [O E]. split; [exact O|]. rewrite E, Fof_fval.
  transitivity (Fmul a (Fmul RI RR)); [ring|]. rewrite RI_ok. ring.
Qed.
Definition ops63 : fops (list int) := {|
  f_zero := zero63; f_one := one63; f_add := add63; f_sub := sub63; f_mul := mul63; f_sqr := fun x => mul63 x x; f_dbl := fun x => add63 x x;
  f_neg := sub63 zero63; f_inv := fun x => e63 (Finv (d63 x)); f_eq := eq63; f_isZero := isz63; f_isOne := fun x => eq63 x one63 |}.
Lemma d63_add a b : ok63 a -> ok63 b -> ok63 (add63 a b) /\ d63 (add63 a b) = Fadd (d63 a) (d63 b).
Proof. intros A B. destruct (add63_ok a b A B) as [O [m E]]. split; [exact O|]. unfold d63. rewrite (Fof_hint _ _ m E), Fof_add. ring. Qed.
Lemma d63_sub a b : ok63 a -> ok63 b -> ok63 (sub63 a b) /\ d63 (sub63 a b) = Fsub (d63 a) (d63 b).
Proof. intros A B. destruct (sub63_ok a b A B) as [O [m E]]. split; [exact O|]. unfold d63. rewrite (Fof_hint _ _ m E), Fof_sub. ring. Qed.
Lemma d63_mul a b : ok63 a -> ok63 b -> ok63 (mul63 a b) /\ d63 (mul63 a b) = Fmul (d63 a) (d63 b).
Proof.
  intros A B. destruct (mul63_ok a b A B) as [O [m E]]. split; [exact O|]. unfold d63. pose proof (Fof_hint _ _ m E) as H. rewrite !Fof_mul in H. fold RR in H.
  transitivity (Fmul (Fmul RI RR) (Fmul (Fof (zl (mul63 a b))) RI)); [rewrite RI_ok; ring|].
  transitivity (Fmul (Fmul RI RI) (Fmul RR (Fof (zl (mul63 a b))))); [ring|]. rewrite H. ring.
Qed.
Lemma zero63_d : ok63 zero63 /\ d63 zero63 = F0.
Proof.
  destruct zero63_ok as (Z1 & Z2 & Z3). split; [split; [split; [exact Z1|eapply Forall_impl; [|exact Z2]; cbn; intros; lia]|rewrite Z3; pose proof mod_pos; lia]|].
  unfold d63. rewrite Z3. fold F0. ring.
Qed.
Lemma one63_d : ok63 one63 /\ d63 one63 = F1.
Proof.
  assert (E : one63 = lz (2 ^ 392 mod modulus)) by (vm_compute; reflexivity). rewrite E.
  destruct (lz_ok (2 ^ 392 mod modulus)) as [O V]. { apply Z.mod_pos_bound, mod_pos. } split; [exact O|]. unfold d63. rewrite V.
  assert (H : Fof (2 ^ 392 mod modulus) = RR). { apply Fof_eq. apply Z.mod_mod. pose proof mod_pos. lia. }
  rewrite H. rewrite <- RI_ok. ring.
Qed.
Lemma isz63_d a : ok63 a -> isz63 a = true <-> d63 a = F0.
Proof.
  intros O. rewrite (isz63_ok a O). unfold d63. split; intros H.
  - assert (E : Fof (zl a) = F0). { apply Fof_eq. rewrite H. reflexivity. } rewrite E. ring.
  - assert (E : Fof (zl a) = F0). { transitivity (Fmul (Fmul (Fof (zl a)) RI) RR); [|rewrite H; ring]. transitivity (Fmul (Fof (zl a)) (Fmul RI RR)); [rewrite RI_ok; ring|ring]. }
    apply Fof_eq in E. rewrite E. reflexivity.
Qed.
Lemma eq63_d a b : ok63 a -> ok63 b -> eq63 a b = true <-> d63 a = d63 b.
Proof.
  intros A B. unfold eq63. destruct (d63_sub a b A B) as [O E]. rewrite (isz63_d _ O), E. split; intros H.
  - transitivity (Fadd (Fsub (d63 a) (d63 b)) (d63 b)); [ring|rewrite H; ring].
  - rewrite H. ring.
Qed.
Lemma ops63_represents : represents ops63 KFp ok63 d63.
Proof.
  constructor; cbn [ops63 f_zero f_one f_add f_sub f_mul f_sqr f_dbl f_neg f_inv f_eq f_isZero f_isOne KFp k0 k1 kadd ksub kmul kopp kinv car]; intros.
  - exact zero63_d.
  - exact one63_d.
  - apply d63_add; auto.
  - apply d63_sub; auto.
  - apply d63_mul; auto.
  - apply d63_mul; auto.
  - apply d63_add; auto.
  - destruct zero63_d as [Z1 Z2]. destruct (d63_sub _ _ Z1 H) as [O E]. split; [exact O|]. rewrite E, Z2. ring.
  - apply e63_ok.
  - apply eq63_d; auto.
  - apply isz63_d; auto.
  - destruct one63_d as [Z1 Z2]. rewrite (eq63_d _ _ H Z1), Z2. reflexivity.
Qed.
