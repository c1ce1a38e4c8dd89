(** Fp6 and Fp12 are fields; Frobenius in coordinates; square roots in Fp2. *)
From Coq Require Import ZArith Znumtheory Zpow_facts Bool Ring Field Lia.
From Verif Require Import RingPow NumTheory SpecField FieldProof TowerProof PowTwo.
Local Open Scope Z_scope.
Add Field Fp_fieldT2 : F_field.
Add Field Fp2_fieldT2 : F2_field.
Add Ring Fp6_ringT2 : F6_ring.
Add Ring Fp12_ringT2 : F12_ring.

(** ** characters of 2 and xi *)
Lemma Fpow2_e12 : Fpow (Fof 2) e12 = Fof two_e12.
Proof.
  rewrite Fpow_Fof by discriminate. apply Fof_eq. rewrite two_e12_ok. reflexivity.
Qed.
Definition e6 : Z := Eval vm_compute in ((modulus - 1) / 6).
Definition e4 : Z := Eval vm_compute in ((modulus - 3) / 4).
Lemma e6_ok : modulus - 1 = 6 * e6. Proof. reflexivity. Qed.
Lemma e4_ok : modulus - 3 = 4 * e4. Proof. reflexivity. Qed.
Lemma e12_pos : 0 <= e12. Proof. discriminate. Qed.
Lemma e6_pos : 0 <= e6. Proof. discriminate. Qed.
Lemma e4_pos : 0 <= e4. Proof. discriminate. Qed.
Lemma e6_12 : e6 = (e12 + e12) + 1. Proof. reflexivity. Qed.
Lemma e4_12 : e4 = (e12 + (e12 + e12)) + 1. Proof. reflexivity. Qed.
Lemma e64 : e6 + (e6 + e6) = 2 * e4 + 1. Proof. reflexivity. Qed.
Definition e16 : Z := Eval vm_compute in (e4 / 4).
Lemma e4_16 : e4 = 4 * e16 + 2. Proof. reflexivity. Qed.
Lemma e16_pos : 0 <= e16. Proof. discriminate. Qed.
Lemma p1_6 : modulus + 1 = 3 * (2 * e6) + 2. Proof. reflexivity. Qed.
Lemma pm1_6 : modulus - 1 = (2 * e6) * 3. Proof. reflexivity. Qed.
Lemma pm1_6' : modulus - 1 = 3 * (2 * e6). Proof. reflexivity. Qed.
Lemma p_6 : modulus = 3 * (e6 + e6) + 1. Proof. reflexivity. Qed.
Lemma p_6' : modulus = 2 * (3 * e6) + 1. Proof. reflexivity. Qed.
Lemma half_6 : half_pm1 = e6 + (e6 + e6). Proof. reflexivity. Qed.
Lemma half_2 : half_pm1 + half_pm1 = modulus - 1. Proof. reflexivity. Qed.
Lemma p_pos : 0 <= modulus. Proof. discriminate. Qed.
Lemma pm1_pos : 0 <= modulus - 1. Proof. discriminate. Qed.
Ltac pz := first [apply e12_pos|apply e6_pos|apply e4_pos|apply e16_pos|apply p_pos|apply pm1_pos|apply half_pm1_pos|
  pose proof e12_pos; pose proof e6_pos; pose proof e4_pos; pose proof e16_pos; pose proof p_pos; pose proof half_pm1_pos; lia].
(** reduction with a supplied quotient *)
Lemma Fof_hint x y q : x = y + q * modulus -> Fof x = Fof y.
Proof. intros ->. apply Fof_eq. apply Z.mod_add. discriminate. Qed.
Definition A6 : Z := 0x5f19672fdf76ce51ba69c6076a0f77eaddb3a93be6f89688de17d813620a00022e01fffffffeffff.
Definition A4 : Z := 0x135203e60180a68ee2e9c448d77a2cd91c3dedd930b1cf60ef396489f61eb45e304466cf3e67fa0af1ee7b04121bdea2.
Definition A3 : Z := 0x5f19672fdf76ce51ba69c6076a0f77eaddb3a93be6f89688de17d813620a00022e01fffffffefffe.
Lemma A6_ok : Fmul (Fof 2) (Fmul (Fof two_e12) (Fof two_e12)) = Fof A6.
Proof. rewrite <- !Fof_mul. apply (Fof_hint _ _ 0x302448b5ea0eaf39f3aa7aa2c56dcf9b2c3d3677e337fc5c41483824360dc342426d33c0b933e6bea6074ea99a227983). reflexivity. Qed.
Lemma A4_ok : Fmul (Fof two_e12) (Fof A6) = Fof A4.
Proof. rewrite <- !Fof_mul. apply (Fof_hint _ _ 0x5b7eee9e9913a69390ec7fabac4eb548968671226b689d98eb95d4ffe3daf1c99248afcd390c44f2). reflexivity. Qed.
Lemma A3_ok : Fmul (Fof A6) (Fof A6) = Fof A3.
Proof. rewrite <- !Fof_mul. apply (Fof_hint _ _ 0x15bc8f5f97cd877df398321c5a509c1eb31e44c3e8846743bc41e001500120009). reflexivity. Qed.
Lemma A2_ok : Fmul (Fof A6) (Fof A3) = Fof (modulus - 1).
Proof. rewrite <- !Fof_mul. apply (Fof_hint _ _ 0x15bc8f5f97cd877df398321c5a509c1eb31e44c3e8846743bc41e001500120008). reflexivity. Qed.
Opaque two_e12 A6 A4 A3.
Opaque e12 e6 e4 e16 half_pm1.
Lemma Fpow2_e6 : Fpow (Fof 2) e6 = Fof A6.
Proof.
  rewrite e6_12, (rpow_succ F_ring), (rpow_add F_ring) by pz.
  rewrite Fpow2_e12. exact A6_ok.
Qed.
Lemma Fpow2_e4 : Fpow (Fof 2) e4 = Fof A4.
Proof.
  rewrite e4_12, (rpow_succ F_ring), !(rpow_add F_ring) by pz.
  rewrite Fpow2_e12, <- A4_ok, <- A6_ok. ring.
Qed.
Lemma Fof2 : Fof 2 = Fadd F1 F1. Proof. apply fval_inj. reflexivity. Qed.
Lemma xi_norm : F2norm xi = Fof 2. Proof. rewrite Fof2. unfold F2norm, xi. cbn [re im]. ring. Qed.
Lemma xi_nz : xi <> F2_0. Proof. intros H. apply (f_equal re) in H. exact (F1_neq_F0 H). Qed.
(** xi^((p-1)/6) *)
Definition dlt : Fp2 := F2pow xi e6.
Definition D1 : Fp2 := mkFp2 (Fof 0x1904d3bf02bb0667c231beb4202c0d1f0fd603fd3cbd5f4f7b2443d784bab9c4f67ea53d63e7813d8d0775ed92235fb8) (Fof 0xfc3e2b36c4e03288e9e902231f9fb854a14787b6c7b36fec0c8ec971f63c5f282d5ac14d6c7ec22cf78a126ddc4af3).
Lemma F2norm_pow a n : 0 <= n -> F2norm (F2pow a n) = Fpow (F2norm a) n.
Proof.
  revert n. apply natlike_ind. { unfold F2norm, F2_1. cbn. apply fval_inj. reflexivity. }
  intros n Hn IH. unfold Z.succ. rewrite (rpow_succ F2_ring), (rpow_succ F_ring), F2norm_mul, IH by lia. reflexivity.
Qed.
Lemma dlt_def : F2pow xi e6 = dlt. Proof. reflexivity. Qed.
Lemma dlt_norm : F2norm dlt = F2norm D1.
Proof.
  unfold dlt. rewrite F2norm_pow, xi_norm, Fpow2_e6 by pz. apply fval_inj. vm_compute. reflexivity.
Qed.
Lemma xi_sq : F2mul xi xi = F2mul (F2of (Fof 2)) F2u.
Proof. rewrite Fof2. apply F2_eq; unfold F2u; f2_unf; ring. Qed.
Lemma F2u_4 : F2pow F2u 4 = F2_1.
Proof. change 4 with (2 * 2). rewrite (rpow_mul F2_ring), !rpow_2, F2u_sq by lia. ring. Qed.
Lemma dlt_cube : F2mul dlt (F2mul dlt dlt) = F2mul D1 (F2mul D1 D1).
Proof.
  unfold dlt. rewrite <- !(rpow_add F2_ring) by pz.
  rewrite e64, (rpow_succ F2_ring), (rpow_mul F2_ring), rpow_2, xi_sq, (rpow_mult F2_ring), F2of_pow, Fpow2_e4 by pz.
  rewrite e4_16, (rpow_add F2_ring), (rpow_mul F2_ring), F2u_4, (rpow_one F2_ring), rpow_2, F2u_sq by pz.
  apply F2_eq; apply fval_inj; vm_compute; reflexivity.
Qed.
Lemma D1_nz : D1 <> F2_0.
Proof. intros H. apply (f_equal re) in H. apply (f_equal fval) in H. vm_compute in H. discriminate H. Qed.
Lemma F2inv_r a : a <> F2_0 -> F2mul a (F2inv a) = F2_1.
Proof. intros H. transitivity (F2mul (F2inv a) a); [ring|apply F2inv_l, H]. Qed.
Lemma F2norm_1 : F2norm F2_1 = F1. Proof. unfold F2norm, F2_1. cbn [re im]. ring. Qed.
Opaque dlt D1.
Lemma dlt_eq : dlt = D1.
Proof.
  set (y := F2mul dlt (F2inv D1)).
  assert (Y3 : F2pow y 3 = F2_1).
  { change (F2pow y 3) with (F2mul y (F2mul y y)). unfold y.
    transitivity (F2mul (F2mul dlt (F2mul dlt dlt)) (F2mul (F2inv D1) (F2mul (F2inv D1) (F2inv D1)))); [ring|].
    rewrite dlt_cube. generalize D1_nz. generalize D1. clear. intros d Hd. field. exact Hd. }
  assert (N1 : F2norm D1 <> F0). { intros H. apply D1_nz, F2norm_0, H. }
  assert (NY : F2norm y = F1).
  { unfold y. rewrite F2norm_mul, dlt_norm, <- F2norm_mul, (F2inv_r D1 D1_nz). exact F2norm_1. }
  assert (Y1 : F2pow y (modulus + 1) = F2_1).
  { rewrite (rpow_succ F2_ring), F2_frob, F2conj_norm, NY by pz. reflexivity. }
  assert (Y2 : F2pow y 2 = F2_1).
  { clear - Y1 Y3. clearbody y. rewrite p1_6 in Y1. etransitivity; [|exact Y1]. symmetry. rewrite (rpow_add F2_ring), (rpow_mul F2_ring), Y3, (rpow_one F2_ring) by pz. ring. }
  assert (Y : y = F2_1).
  { transitivity (F2pow y 3); [|exact Y3]. replace 3 with (2 + 1) by reflexivity.
    rewrite (rpow_succ F2_ring), Y2 by lia. ring. }
  transitivity (F2mul y D1); [unfold y; generalize D1_nz; generalize D1; generalize dlt; clear; intros; field; assumption|rewrite Y; ring].
Qed.
(** 2 is neither a square nor a cube modulo p *)
Lemma two_noncube : Fpow (Fof 2) (2 * e6) <> F1.
Proof.
  rewrite Z.mul_comm, (rpow_mul F_ring), rpow_2, Fpow2_e6, A3_ok by pz.
  intros H. apply (f_equal fval) in H. vm_compute in H. discriminate H.
Qed.
Lemma two_nonsquare : Fpow (Fof 2) half_pm1 <> F1.
Proof.
  rewrite half_6, !(rpow_add F_ring), Fpow2_e6, A3_ok, A2_ok by pz.
  intros H. apply (f_equal fval) in H. vm_compute in H. discriminate H.
Qed.
Lemma xi_noncube z : F2mul z (F2mul z z) <> xi.
Proof.
  intros H. apply two_noncube. rewrite <- xi_norm, <- H, <- F2norm_pow by pz.
  change (F2mul z (F2mul z z)) with (F2pow z 3). rewrite <- (rpow_mul F2_ring) by pz.
  rewrite <- pm1_6', F2norm_pow by pz. apply F_fermat. intros E. apply F2norm_0 in E. subst z. apply xi_nz. rewrite <- H. ring.
Qed.
Lemma xi_nonsquare z : F2mul z z <> xi.
Proof.
  intros H. apply two_nonsquare. rewrite <- xi_norm, <- H, F2norm_mul, (rpow_mult F_ring), <- (rpow_add F_ring) by pz.
  rewrite half_2. apply F_fermat.
  intros E. apply F2norm_0 in E. subst z. apply xi_nz. rewrite <- H. ring.
Qed.

(** ** Fp6 is a field *)
Lemma F6_adj_mul a : F6mul a (F6adj a) = F6of (F6norm a).
Proof. apply F6_eq; f6_unf; ring. Qed.
Lemma F6norm_mul a b : F6norm (F6mul a b) = F2mul (F6norm a) (F6norm b).
Proof. f6_unf. ring. Qed.
Lemma F2sub_eq_0 a b : F2sub a b = F2_0 -> a = b.
Proof. intros H. transitivity (F2add (F2sub a b) b); [ring|rewrite H; ring]. Qed.
(** a triple of "geometric progression" shape would make xi a cube *)
Lemma geo_zero a b c : F2mul a a = F2mul xi (F2mul b c) -> F2mul xi (F2mul c c) = F2mul a b -> F2mul b b = F2mul a c ->
  a = F2_0 /\ b = F2_0 /\ c = F2_0.
Proof.
  intros H1 H2 H3.
  assert (S : forall x, F2mul x x = F2_0 -> x = F2_0) by (intros x Hx; apply F2mul_0 in Hx; tauto).
  assert (Xc : F2mul xi (F2mul c c) = F2_0 -> c = F2_0).
  { intros H. apply F2mul_0 in H. destruct H as [H|H]; [destruct (xi_nz H)|]. apply S, H. }
  destruct (F2_eq_dec c F2_0) as [->|Hc].
  - assert (b = F2_0) by (apply S; rewrite H3; ring). subst b.
    assert (a = F2_0) by (apply S; rewrite H1; ring). auto.
  - exfalso. apply (xi_noncube (F2mul b (F2inv c))).
    assert (Ea : a = F2mul (F2mul b b) (F2inv c)) by (rewrite H3; field; exact Hc).
    transitivity (F2mul (F2mul a b) (F2mul (F2inv c) (F2inv c))); [rewrite Ea; ring|].
    rewrite <- H2. field. exact Hc.
Qed.
Lemma F6norm_0 a : F6norm a = F2_0 -> a = F6_0.
Proof.
  intros H. set (A := F6adj a).
  assert (Z0 : A = F6_0).
  { assert (AA : F6adj A = F6_0).
    { transitivity (F6scale (F6norm a) a); [unfold A; apply F6_eq; f6_unf; ring|]. rewrite H. apply F6_eq; f6_unf; ring. }
    assert (G := geo_zero (co0 A) (co1 A) (co2 A)).
    destruct G as (G1 & G2 & G3).
    - apply (f_equal co0) in AA. apply F2sub_eq_0, AA.
    - apply (f_equal co1) in AA. apply F2sub_eq_0, AA.
    - apply (f_equal co2) in AA. apply F2sub_eq_0, AA.
    - apply F6_eq; assumption. }
  destruct (geo_zero (co0 a) (co1 a) (co2 a)) as (G1 & G2 & G3).
  - apply (f_equal co0) in Z0. apply F2sub_eq_0, Z0.
  - apply (f_equal co1) in Z0. apply F2sub_eq_0, Z0.
  - apply (f_equal co2) in Z0. apply F2sub_eq_0, Z0.
  - apply F6_eq; assumption.
Qed.
Lemma F6inv_l a : a <> F6_0 -> F6mul (F6inv a) a = F6_1.
Proof.
  intros Ha. assert (N : F6norm a <> F2_0) by (intros E; apply Ha, F6norm_0, E).
  transitivity (F6mul (F6of (F2inv (F6norm a))) (F6mul a (F6adj a))).
  - unfold F6inv. apply F6_eq; unfold F6scale, F6of, F6mul; cbn [co0 co1 co2]; ring.
  - rewrite F6_adj_mul, <- F6of_mul. rewrite F2inv_l by exact N. reflexivity.
Qed.
Lemma F6_1_neq_0 : F6_1 <> F6_0. Proof. intros H. apply (f_equal co0) in H. exact (F2_1_neq_0 H). Qed.
Lemma F6_field : field_theory F6_0 F6_1 F6add F6mul F6sub F6opp F6div F6inv eq.
Proof. constructor; [exact F6_ring|exact F6_1_neq_0|reflexivity|exact F6inv_l]. Qed.
Add Field Fp6_field : F6_field.
Lemma F6_eq_dec (a b : Fp6) : {a = b} + {a <> b}.
Proof. decide equality; apply F2_eq_dec. Qed.
Lemma F6mul_0 a b : F6mul a b = F6_0 -> a = F6_0 \/ b = F6_0.
Proof.
  intros H. destruct (F6_eq_dec a F6_0) as [|Ha]; [left; auto|right].
  transitivity (F6mul (F6inv a) (F6mul a b)); [field; exact Ha|rewrite H; ring].
Qed.

(** ** Fp12 is a field *)
Lemma F6v_nonsquare z : F6mul z z <> F6v.
Proof.
  intros H. apply (xi_nonsquare (F6norm z)). rewrite <- F6norm_mul, H. f6_unf. ring.
Qed.
Lemma F12norm_0 a : F12norm a = F6_0 -> a = F12_0.
Proof.
  intros H. unfold F12norm in H.
  assert (E : F6mul (lo a) (lo a) = F6mul F6v (F6mul (hi a) (hi a))).
  { transitivity (F6add (F6sub (F6mul (lo a) (lo a)) (F6mul F6v (F6mul (hi a) (hi a)))) (F6mul F6v (F6mul (hi a) (hi a)))); [ring|].
    rewrite H. ring. }
  destruct (F6_eq_dec (hi a) F6_0) as [Hh|Hh].
  - assert (L : F6mul (lo a) (lo a) = F6_0) by (rewrite E, Hh; ring). apply F6mul_0 in L.
    apply F12_eq; [tauto|exact Hh].
  - exfalso. apply (F6v_nonsquare (F6mul (lo a) (F6inv (hi a)))).
    transitivity (F6mul (F6mul (lo a) (lo a)) (F6mul (F6inv (hi a)) (F6inv (hi a)))); [ring|]. rewrite E. field. exact Hh.
Qed.
Lemma F12_conj_mul a : F12mul a (F12conj a) = F12of (F12norm a).
Proof. apply F12_eq; f12_unf; ring. Qed.
Lemma F12inv_l a : a <> F12_0 -> F12mul (F12inv a) a = F12_1.
Proof.
  intros Ha. assert (N : F12norm a <> F6_0) by (intros E; apply Ha, F12norm_0, E).
  transitivity (F12mul (F12of (F6inv (F12norm a))) (F12mul a (F12conj a))).
  - unfold F12inv. apply F12_eq; unfold F12of, F12mul, F12conj; cbn [lo hi]; ring.
  - rewrite F12_conj_mul, <- F12of_mul. rewrite F6inv_l by exact N. reflexivity.
Qed.
Lemma F12_1_neq_0 : F12_1 <> F12_0. Proof. intros H. apply (f_equal lo) in H. exact (F6_1_neq_0 H). Qed.
Lemma F12_field : field_theory F12_0 F12_1 F12add F12mul F12sub F12opp F12div F12inv eq.
Proof. constructor; [exact F12_ring|exact F12_1_neq_0|reflexivity|exact F12inv_l]. Qed.
Lemma F12_eq_dec (a b : Fp12) : {a = b} + {a <> b}.
Proof. decide equality; apply F6_eq_dec. Qed.

(** ** Frobenius in coordinates *)
(** (1, c, c^2, ..) acting on the coordinates of 1, w, w^2 = v, .. after [conj^k] *)
Definition cj (k : bool) (a : Fp2) : Fp2 := if k then F2conj a else a.
Definition frob6 (k : bool) (c2 : Fp2) (a : Fp6) : Fp6 :=
  mkFp6 (cj k (co0 a)) (F2mul c2 (cj k (co1 a))) (F2mul (F2mul c2 c2) (cj k (co2 a))).
Definition frob12 (k : bool) (c : Fp2) (a : Fp12) : Fp12 :=
  mkFp12 (frob6 k (F2mul c c) (lo a)) (F6mul (F6of c) (frob6 k (F2mul c c) (hi a))).
Lemma F6v_cube : F6mul F6v (F6mul F6v F6v) = F6of xi. Proof. apply F6_eq; f6_unf; ring. Qed.
Lemma F6v_p : F6pow F6v modulus = F6mul (F6of (F2mul dlt dlt)) F6v.
Proof.
  rewrite p_6 at 1.
  rewrite (rpow_succ F6_ring), (rpow_mul F6_ring) by pz.
  change (F6pow F6v 3) with (F6mul F6v (F6mul F6v F6v)). rewrite F6v_cube, F6of_pow, (rpow_add F2_ring) by pz.
  rewrite dlt_def. ring.
Qed.
Lemma F6_decomp a : a = F6add (F6of (co0 a)) (F6add (F6mul (F6of (co1 a)) F6v) (F6mul (F6of (co2 a)) (F6mul F6v F6v))).
Proof. apply F6_eq; f6_unf; ring. Qed.
Lemma F6_frob a : F6pow a modulus = frob6 true (F2mul dlt dlt) a.
Proof.
  rewrite (F6_decomp a) at 1.
  rewrite !(rpow_frob_add F6_ring modulus_prime F6_char), !(rpow_mult F6_ring), F6v_p.
  rewrite !F6of_pow, !F2_frob by pz.
  generalize (F2mul dlt dlt). intros c. unfold frob6, cj. apply F6_eq; f6_unf; ring.
Qed.
Lemma F12w_sq : F12mul F12w F12w = F12of F6v. Proof. apply F12_eq; f12_unf; ring. Qed.
Lemma F12w_p : F12pow F12w modulus = F12mul (F12of (F6of dlt)) F12w.
Proof.
  rewrite p_6' at 1.
  rewrite (rpow_succ F12_ring), (rpow_mul F12_ring), rpow_2, F12w_sq by pz.
  rewrite F12of_pow, (rpow_mul F6_ring) by pz.
  change (F6pow F6v 3) with (F6mul F6v (F6mul F6v F6v)). rewrite F6v_cube, F6of_pow by pz.
  rewrite dlt_def. ring.
Qed.
Lemma F12_decomp a : a = F12add (F12of (lo a)) (F12mul (F12of (hi a)) F12w).
Proof. apply F12_eq; f12_unf; ring. Qed.
Lemma F12_frob a : F12pow a modulus = frob12 true dlt a.
Proof.
  rewrite (F12_decomp a) at 1.
  rewrite !(rpow_frob_add F12_ring modulus_prime F12_char), !(rpow_mult F12_ring), F12w_p.
  rewrite !F12of_pow, !F6_frob by pz. unfold frob12.
  generalize (frob6 true (F2mul dlt dlt) (lo a)) (frob6 true (F2mul dlt dlt) (hi a)) (F6of dlt). intros x y c. apply F12_eq; f12_unf; ring.
Qed.
(** iterates: coefficient of w^(p^k) *)
Fixpoint dltk (k : nat) : Fp2 := match k with O => F2_1 | S k => F2mul dlt (F2conj (dltk k)) end.
Lemma cj_S k a : cj (Nat.odd (S k)) a = F2conj (cj (Nat.odd k) a).
Proof. rewrite Nat.odd_succ, <- Nat.negb_odd. destruct (Nat.odd k); cbn; [rewrite F2conj_invol|]; reflexivity. Qed.
Lemma modk_S k : modulus ^ Z.of_nat (S k) = modulus ^ Z.of_nat k * modulus.
Proof. rewrite Nat2Z.inj_succ, Z.pow_succ_r by lia. ring. Qed.
Lemma modk_pos k : 0 <= modulus ^ Z.of_nat k. Proof. apply Z.pow_nonneg. discriminate. Qed.
Lemma F6_frobk a k : F6pow a (modulus ^ Z.of_nat k) = frob6 (Nat.odd k) (F2mul (dltk k) (dltk k)) a.
Proof.
  induction k as [|k IH].
  - cbn. unfold frob6. cbn [cj]. apply F6_eq; cbn [co0 co1 co2]; f2_unf; destruct a as [[] [] []]; cbn; f_equal; ring.
  - rewrite modk_S, (rpow_mul F6_ring), IH, F6_frob by (try apply modk_pos; discriminate).
    cbn [dltk]. unfold frob6. rewrite !cj_S. cbn [co0 co1 co2 cj].
    generalize (cj (Nat.odd k) (co0 a)) (cj (Nat.odd k) (co1 a)) (cj (Nat.odd k) (co2 a)) (dltk k) dlt. clear. intros.
    rewrite !F2conj_mul. apply F6_eq; cbn [co0 co1 co2]; ring.
Qed.
Lemma F6of_scale c x : F6mul (F6of c) x = mkFp6 (F2mul c (co0 x)) (F2mul c (co1 x)) (F2mul c (co2 x)).
Proof. apply F6_eq; f6_unf; ring. Qed.
Lemma F12_frobk a k : F12pow a (modulus ^ Z.of_nat k) = frob12 (Nat.odd k) (dltk k) a.
Proof.
  induction k as [|k IH].
  - cbn. unfold frob12. rewrite <- !(F6_frobk _ 0). cbn. apply F12_eq; cbn [lo hi]; [reflexivity|].
    change (F6of F2_1) with F6_1. ring.
  - rewrite modk_S, (rpow_mul F12_ring), IH, F12_frob by (try apply modk_pos; discriminate).
    cbn [dltk]. unfold frob12. cbn [lo hi].
    assert (K : forall b, frob6 true (F2mul dlt dlt) (frob6 (Nat.odd k) (F2mul (dltk k) (dltk k)) b) =
                          frob6 (Nat.odd (S k)) (F2mul (F2mul dlt (F2conj (dltk k))) (F2mul dlt (F2conj (dltk k)))) b).
    { intros b. unfold frob6. rewrite !cj_S. cbn [co0 co1 co2 cj].
      generalize (cj (Nat.odd k) (co0 b)) (cj (Nat.odd k) (co1 b)) (cj (Nat.odd k) (co2 b)) (dltk k) dlt. clear. intros.
      rewrite !F2conj_mul. apply F6_eq; cbn [co0 co1 co2]; ring. }
    rewrite K. apply F12_eq; cbn [lo hi]; [reflexivity|]. rewrite <- K.
    generalize (frob6 (Nat.odd k) (F2mul (dltk k) (dltk k)) (hi a)) dlt (dltk k). clear. intros b d dk.
    rewrite !F6of_scale. unfold frob6. cbn [co0 co1 co2 cj].
    generalize (co0 b) (co1 b) (co2 b). clear. intros.
    rewrite !F2conj_mul. apply F6_eq; cbn [co0 co1 co2]; ring.
Qed.

