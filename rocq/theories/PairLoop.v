(** calculate computes the product of the reduced ate pairings. *)
From Coq Require Import ZArith Znumtheory List Bool Lia Ring Field.
From Verif Require Import RingPow SpecField FieldProof TowerProof TowerProof2 ModelPrim ModelWord ModelScalar ModelFp ModelTower ModelCurve ModelKeys FpProof ScalarProof
  TowerRefine TowerRefine2 TowerRefine3 SpecCurve AbGroup CurveProof CurveMaps CurveRefine CurveRefine2 CurveInst CurveReps SubgroupProof CodecProof CodecProof2 Orders Primes
  PairCocycle PairLine PairField PairUnits PairTwist PairBilin ModelPairing PairSteps PairFinal.
Import ListNotations.
Local Open Scope Z_scope.
Add Field F_fieldPL : F_field.
Add Field F2_fieldPL : F2_field.
Add Field F12_fieldPL : F12_field.

(** * one line *)
Lemma form_scale s a b c : F12of014 (F2mul s a) (F2mul s b) (F2mul s c) = F12mul (i2 s) (F12of014 a b c).
Proof. unfold i2, F12of014, F6of01, F6of1. apply F12_eq; f12_unf; apply F6_eq; f6_unf; ring. Qed.
Lemma i2_nz s : s <> F2_0 -> i2 s <> F12_0.
Proof. intros N E. apply N. exact (f_equal (fun z => co0 (lo z)) E). Qed.
Lemma ev_i2 s : s <> F2_0 -> ev (i2 s) = gid.
Proof. intros N. apply (ev_lo (F6of s)). intros E. apply N. exact (f_equal co0 E). Qed.
Lemma lc_form (A B : E2) (x y : Fp) (x1 y1 x2 y2 x3 y3 l m : Fp2) : y <> F0 -> cpt (b := b2) A = A2 x1 y1 -> cpt (b := b2) B = A2 x2 y2 ->
  adds KFp2 b2 x1 y1 x2 y2 x3 y3 l m -> lc x y A B = ev (F12of014 (F2opp m) (F2opp (F2mul l (F2of x))) (F2of y)).
Proof.
  intros N EA EB D. rewrite lc_def. rewrite <- lin_form.
  assert (E : line KF12 (tt A) (tt B) (i1 x) (i1 y) = lin KF12 (F12mul (F12mul tw3 (F12inv tw2)) (i2 l)) (F12mul tw3 (i2 m)) (i1 x) (i1 y)).
  { unfold tt, tp. rewrite EA, EB.
    apply (line_map_adds KFp2 KF12 i2 KFp2_field KF12_field hom_i2 tw2 tw3 tw_ac tw2_nz b2 b12 tw_b _ _ x1 y1 x2 y2 x3 y3 l m _ _ KF12_two KF12_three b12_nz D); reflexivity. }
  rewrite <- E. symmetry. etransitivity; [apply ev_mul; [exact w3_nz|apply tt_l_nz, N]|]. rewrite ev_w3. apply g_id.
Qed.
Definition cval (c : ellc) (x y : Fp) : Fp12 := F12of014 (dec2 (fst (fst c))) (F2mul (F2of x) (dec2 (snd (fst c)))) (F2mul (F2of y) (dec2 (snd c))).
Lemma linec_ev c A B (x y : Fp) : linec c A B -> y <> F0 -> cval c x y <> F12_0 /\ ev (cval c x y) = lc x y A B.
Proof.
  intros (_ & _ & _ & s & l & m & x1 & y1 & x2 & y2 & x3 & y3 & S & E0 & E1' & E2' & EA & EB & D) N.
  assert (V : cval c x y = F12mul (i2 s) (F12of014 (F2opp m) (F2opp (F2mul l (F2of x))) (F2of y))).
  { unfold cval. rewrite E0, E1', E2', <- form_scale.
    assert (EX : F2mul (F2of x) (F2mul s (F2opp l)) = F2mul s (F2opp (F2mul l (F2of x)))) by ring.
    assert (EY : F2mul (F2of y) s = F2mul s (F2of y)) by ring.
    rewrite EX, EY. reflexivity. }
  rewrite V. pose proof (form_nz (F2opp m) (F2opp (F2mul l (F2of x))) y N) as NF. pose proof (i2_nz s S) as NS. split; [apply F12_mul_nz; assumption|].
  rewrite (lc_form A B x y _ _ _ _ _ _ _ _ N EA EB D). etransitivity; [apply ev_mul; assumption|]. rewrite (ev_i2 s S). apply g_id.
Qed.
Lemma ell_ok f a c (p : g1) : rep12 f a -> canon2 (fst (fst c)) -> canon2 (snd (fst c)) -> canon2 (snd c) -> canon (jx p) -> canon (jy p) ->
  rep12 (ell f c p) (F12mul a (cval c (dec (jx p)) (dec (jy p)))).
Proof.
  intros [C D] C0 C1 C2 CX CY. unfold ell. cbv zeta. split; [auto 20 with canon|].
  rewrite dec12_mulBy014 by auto 20 with canon. rewrite !dec2_mulByFq by assumption. rewrite D. reflexivity.
Qed.

(** * sums over the pairs *)
Lemma gsum_map_op {G : abgroup} {D} (f g : D -> G) (l : list D) : gsum (map (fun d => gop (f d) (g d)) l) = gop (gsum (map f l)) (gsum (map g l)).
Proof. induction l as [|d l IH]; [symmetry; apply g_id|]. cbn [map]. unfold gsum in *. cbn [fold_right]. rewrite IH. apply g_swap4. Qed.
Lemma gsum_map_ext {G : abgroup} {D} (f g : D -> G) (l : list D) : (forall d, f d = g d) -> gsum (map f l) = gsum (map g l).
Proof. intros H. rewrite (map_ext f g H). reflexivity. Qed.
Lemma gsum_map_id {G : abgroup} {D} (l : list D) : gsum (map (fun _ => gid) l) = gid :> G.
Proof. induction l as [|d l IH]; [reflexivity|]. cbn [map]. unfold gsum in *. cbn [fold_right]. rewrite IH. apply g_id. Qed.
Lemma gsum_map_inv {G : abgroup} {D} (f : D -> G) (l : list D) : gsum (map (fun d => ginv (f d)) l) = ginv (gsum (map f l)).
Proof. induction l as [|d l IH]; [symmetry; apply g_inv_0|]. cbn [map]. unfold gsum in *. cbn [fold_right]. rewrite IH. symmetry. apply g_inv_op. Qed.

(** a pair: the coordinates of P, and Q *)
Definition pdata : Type := (Fp * Fp * E2)%type.
Definition px (d : pdata) : Fp := fst (fst d). Definition py (d : pdata) : Fp := snd (fst d). Definition pQ (d : pdata) : E2 := snd d.
Definition plc (d : pdata) := lc (px d) (py d).
Definition affp (p : g1) (d : pdata) : Prop := canon (jx p) /\ canon (jy p) /\ dec (jx p) = px d /\ dec (jy p) = py d /\ py d <> F0.
Lemma ell_all_ok k (A B : pdata -> E2) ps ds : 
  Forall2 (fun pc d => affp (fst pc) d /\ exists c, nth_error (snd pc) k = Some c /\ linec c (A d) (B d)) ps ds ->
  forall f a, rep12 f a -> a <> F12_0 ->
  exists f' a', ell_all k ps f = Ok f' /\ rep12 f' a' /\ a' <> F12_0 /\ ev a' = gop (ev a) (gsum (map (fun d => plc d (A d) (B d)) ds)).
Proof.
  induction 1 as [|[p cs] d ps ds H _ IH]; intros f a R N.
  - exists f, a. split; [reflexivity|]. split; [exact R|]. split; [exact N|]. symmetry. apply g_id_r.
  - destruct H as ((CX & CY & EX & EY & Ny) & c & E & L). cbn [fst snd] in *. cbn [ell_all]. rewrite E.
    pose proof L as (C0 & C1 & C2 & _). pose proof (ell_ok f a c p R C0 C1 C2 CX CY) as R1. rewrite EX, EY in R1.
    destruct (linec_ev c _ _ (px d) (py d) L Ny) as [NV EV].
    destruct (IH _ _ R1 (F12_mul_nz _ _ N NV)) as (f' & a' & Q1 & Q2 & Q3 & Q4). exists f', a'. split; [exact Q1|]. split; [exact Q2|]. split; [exact Q3|].
    rewrite Q4. rewrite (ev_mul _ _ N NV), EV. etransitivity; [apply g_assoc|]. reflexivity.
Qed.

(** * the loop *)
Definition mfz (N : Z) (d : pdata) : U12 := mf (plc d) (Z.to_nat N) (pQ d).
Lemma mfz_1 d : mfz 1 d = gid. Proof. unfold mfz. change (Z.to_nat 1) with 1%nat. apply mf_1. intros. apply lc_id. Qed.
Definition pok (d : pdata) : Prop := on KFp b1 (px d) (py d) /\ py d <> F0 /\ zmul order (pQ d) = gid /\ pQ d <> gid.
Lemma mfz_dbl N d : pok d -> 0 <= N -> mfz (2 * N) d = gop (gop (mfz N d) (mfz N d)) (plc d (zmul N (pQ d)) (zmul N (pQ d))).
Proof.
  intros (O & Y & _) H. unfold mfz. rewrite Z2Nat.inj_mul by lia. change (Z.to_nat 2) with 2%nat.
  rewrite (mf_dbl (plc d) (lc_comm _ _) (lc_id _ _) (lc_coc _ _ O Y)). rewrite Z2Nat.id by exact H. symmetry. apply g_assoc.
Qed.
Lemma mfz_succ N d : 0 <= N -> mfz (N + 1) d = gop (mfz N d) (plc d (zmul N (pQ d)) (pQ d)).
Proof. intros H. unfold mfz. rewrite Z2Nat.inj_add by lia. change (Z.to_nat 1) with 1%nat. rewrite Nat.add_1_r. cbn [mf]. rewrite Z2Nat.id by exact H. reflexivity. Qed.

Definition PI (n k : nat) (N : Z) (pc : g1 * list ellc) (d : pdata) : Prop := affp (fst pc) d /\ pok d /\
  exists q r done tail, affq q (pQ d) /\ hrep r (zmul N (pQ d)) /\ snd pc = done ++ pre_loop n r q ++ tail /\ length done = k.
Lemma nth_done {A} (done : list A) x l k : length done = k -> nth_error (done ++ x :: l) k = Some x.
Proof. intros <-. rewrite nth_error_app2, Nat.sub_diag by lia. reflexivity. Qed.
Lemma nth_done2 {A} (done : list A) x y l k : length done = k -> nth_error (done ++ x :: y :: l) (S k) = Some y.
Proof. intros <-. rewrite nth_error_app2 by lia. replace (S (length done) - length done)%nat with 1%nat by lia. reflexivity. Qed.
Lemma nondeg N (Q : E2) : zmul order Q = gid -> Q <> gid -> 0 < N -> 2 * N + 1 < order -> zmul (2 * N) Q <> Q /\ gop (zmul (2 * N) Q) Q <> gid.
Proof.
  intros H NQ P L. split; intros E.
  - assert (Z : zmul (2 * N - 1) Q = gid) by (rewrite zmul_sub, zmul_1, E; apply g_inv).
    apply (zmul_prime order) in Z; [|exact order_prime|exact H|exact NQ]. apply Z.divide_pos_le in Z; lia.
  - assert (Z : zmul (2 * N + 1) Q = gid) by (rewrite zmul_add, zmul_1; exact E).
    apply (zmul_prime order) in Z; [|exact order_prime|exact H|exact NQ]. apply Z.divide_pos_le in Z; lia.
Qed.
Lemma PI_dbl n k N pc d : eff_bit n = false -> PI (S n) k N pc d ->
  PI n (S k) (2 * N) pc d /\ exists c, nth_error (snd pc) k = Some c /\ linec c (zmul N (pQ d)) (zmul N (pQ d)).
Proof.
  intros B (AP & PO & q & r & done & tail & AQ & HR & E & L). cbn [pre_loop] in E. rewrite B in E.
  destruct (doubling_step_ok r _ HR) as [L1 H1]. rewrite <- zmul_add in H1. replace (N + N) with (2 * N) in H1 by lia.
  cbv zeta in E. cbn [app] in E. split.
  - split; [exact AP|]. split; [exact PO|]. exists q, (snd (doubling_step r)), (done ++ [fst (doubling_step r)]), tail.
    split; [exact AQ|]. split; [exact H1|]. split; [rewrite E, <- app_assoc; reflexivity|]. rewrite app_length, L. cbn. lia.
  - exists (fst (doubling_step r)). split; [rewrite E; apply nth_done, L|exact L1].
Qed.
Lemma PI_add n k N pc d : eff_bit n = true -> 0 < N -> 2 * N + 1 < order -> PI (S n) k N pc d ->
  PI n (S (S k)) (2 * N + 1) pc d /\ (exists c, nth_error (snd pc) k = Some c /\ linec c (zmul N (pQ d)) (zmul N (pQ d))) /\
  exists c, nth_error (snd pc) (S k) = Some c /\ linec c (zmul (2 * N) (pQ d)) (pQ d).
Proof.
  intros B P LT (AP & PO & q & r & done & tail & AQ & HR & E & L). cbn [pre_loop] in E. rewrite B in E.
  destruct (doubling_step_ok r _ HR) as [L1 H1]. rewrite <- zmul_add in H1. replace (N + N) with (2 * N) in H1 by lia.
  pose proof PO as (_ & _ & HQ & NQ). destruct (nondeg N (pQ d) HQ NQ P LT) as [D1 D2].
  destruct (addition_step_ok _ q _ _ H1 AQ D1 D2) as [L2 H2].
  cbv zeta in E. cbn [app] in E. split; [|split].
  - split; [exact AP|]. split; [exact PO|]. exists q, (snd (addition_step (snd (doubling_step r)) q)), (done ++ [fst (doubling_step r); fst (addition_step (snd (doubling_step r)) q)]), tail.
    split; [exact AQ|]. split; [rewrite zmul_add, zmul_1; exact H2|]. split; [rewrite E, <- app_assoc; reflexivity|]. rewrite app_length, L. cbn. lia.
  - exists (fst (doubling_step r)). split; [rewrite E; apply nth_done, L|exact L1].
  - exists (fst (addition_step (snd (doubling_step r)) q)). split; [rewrite E; apply nth_done2, L|exact L2].
Qed.
Lemma eff_step n : eff / 2 ^ Z.of_nat n = 2 * (eff / 2 ^ Z.of_nat (S n)) + (if eff_bit n then 1 else 0).
Proof.
  assert (E : eff_bit n = Z.testbit eff (Z.of_nat n)) by reflexivity. rewrite E.
  pose proof (Z.testbit_spec' eff (Z.of_nat n) ltac:(lia)) as H. rewrite Nat2Z.inj_succ, Z.pow_succ_r, (Z.mul_comm 2 (2 ^ _)) by lia.
  rewrite <- Z.div_div by lia. pose proof (Z.div_mod (eff / 2 ^ Z.of_nat n) 2 ltac:(lia)) as D. rewrite <- H in D. destruct (Z.testbit eff (Z.of_nat n)); cbn [Z.b2z] in D; exact D.
Qed.
Lemma eff_63 : eff / 2 ^ Z.of_nat 63 = 1. Proof. reflexivity. Qed.
Lemma eff_order : eff < order. Proof. reflexivity. Qed.
Lemma eff_down n : (n <= 63)%nat -> 1 <= eff / 2 ^ Z.of_nat n <= eff.
Proof.
  intros H. split.
  - rewrite <- eff_63. apply Z.div_le_compat_l; [exact eff_pos|]. split; [apply Z.pow_pos_nonneg; lia|]. apply Z.pow_le_mono_r; lia.
  - apply Z.div_le_upper_bound; [apply Z.pow_pos_nonneg; lia|]. pose proof eff_pos. pose proof (Z.pow_pos_nonneg 2 (Z.of_nat n) ltac:(lia) ltac:(lia)). nia.
Qed.
Lemma Forall2_split {A B} (P Q : A -> B -> Prop) l l' : Forall2 (fun a b => P a b /\ Q a b) l l' -> Forall2 P l l' /\ Forall2 Q l l'.
Proof. induction 1 as [|a b l l' [H K] _ [IH IH']]; split; constructor; auto. Qed.
Lemma Forall2_impl' {A B} (P Q : A -> B -> Prop) l l' : (forall a b, P a b -> Q a b) -> Forall2 P l l' -> Forall2 Q l l'.
Proof. intros H. induction 1; constructor; auto. Qed.
Lemma Forall2_right {A B} (P : A -> B -> Prop) (Q : B -> Prop) l l' : (forall a b, P a b -> Q b) -> Forall2 P l l' -> Forall Q l'.
Proof. intros H. induction 1; constructor; eauto. Qed.
Lemma gsum_map_ext' {G : abgroup} {D} (P : D -> Prop) (f g : D -> G) (l : list D) : Forall P l -> (forall d, P d -> f d = g d) -> gsum (map f l) = gsum (map g l).
Proof. intros F H. unfold gsum. induction F as [|d l Hd _ IH]; [reflexivity|]. cbn [map fold_right]. rewrite IH, H by exact Hd. reflexivity. Qed.
Lemma mil_ok ps ds : forall n k f a, (n <= 63)%nat -> Forall2 (PI n k (eff / 2 ^ Z.of_nat n)) ps ds -> rep12 f a -> a <> F12_0 ->
  ev a = gsum (map (mfz (eff / 2 ^ Z.of_nat n)) ds) -> (n = 63%nat -> a = F12_1) ->
  exists f' a', mil_loop n k ps f = Ok f' /\ rep12 f' a' /\ a' <> F12_0 /\ ev a' = gsum (map (mfz eff) ds).
Proof.
  induction n as [|n IH]; intros k f a L63 F R N EV N63.
  - exists f, a. cbn [mil_loop]. split; [reflexivity|]. split; [exact R|]. split; [exact N|]. rewrite EV. change (2 ^ Z.of_nat 0) with 1. rewrite Z.div_1_r. reflexivity.
  - pose proof (eff_step n) as ST. pose proof (eff_down n ltac:(lia)) as DN. pose proof (eff_down (S n) L63) as DS. pose proof eff_order as EO.
    set (M := eff / 2 ^ Z.of_nat (S n)) in *. clearbody M. set (M' := eff / 2 ^ Z.of_nat n) in *.
    cbn [mil_loop]. cbv zeta.
    assert (SQ : exists f1 a1, (if (n =? 62)%nat then f else fp12_sqr f) = f1 /\ rep12 f1 a1 /\ a1 <> F12_0 /\ ev a1 = gop (ev a) (ev a)).
    { destruct (n =? 62)%nat eqn:E62.
      - apply Nat.eqb_eq in E62. exists f, a. split; [reflexivity|]. split; [exact R|]. split; [exact N|].
        rewrite N63 by lia. rewrite ev_1. symmetry. apply g_id.
      - exists (fp12_sqr f), (F12mul a a). split; [reflexivity|]. destruct R as [C D]. split; [split; [apply canon12_sqr, C|rewrite dec12_sqr, D by exact C; reflexivity]|].
        split; [apply F12_mul_nz; assumption|]. apply ev_mul; assumption. }
    destruct SQ as (f1 & a1 & Ef & R1 & N1 & V1). rewrite Ef.
    assert (PO : Forall pok ds) by (eapply Forall2_right; [|exact F]; intros ? ? (_ & X & _); exact X).
    destruct (eff_bit n) eqn:B.
    + assert (F' : Forall2 (fun pc d => PI n (S (S k)) M' pc d /\ ((affp (fst pc) d /\ exists c, nth_error (snd pc) k = Some c /\ linec c (zmul M (pQ d)) (zmul M (pQ d))) /\
        (affp (fst pc) d /\ exists c, nth_error (snd pc) (S k) = Some c /\ linec c (zmul (2 * M) (pQ d)) (pQ d)))) ps ds).
      { apply (Forall2_impl' _ _ _ _ (fun pc d H => H) ) in F. revert F. apply Forall2_impl'. intros pc d H. 
        destruct (PI_add n k M pc d B ltac:(lia) ltac:(lia) H) as (X & Y & Z). rewrite ST. destruct H as [H _]. auto. }
      apply Forall2_split in F'. destruct F' as [G1 F']. apply Forall2_split in F'. destruct F' as [G2 G3].
      destruct (ell_all_ok k _ _ ps ds G2 f1 a1 R1 N1) as (f2 & a2 & E2' & R2 & N2 & V2). rewrite E2'. cbn [obind].
      destruct (ell_all_ok (S k) _ _ ps ds G3 f2 a2 R2 N2) as (f3 & a3 & E3' & R3 & N3 & V3). rewrite E3'. cbn [obind].
      apply (IH (S (S k)) f3 a3); [lia|exact G1|exact R3|exact N3| |lia].
      rewrite V3, V2, V1, EV, ST. rewrite <- !gsum_map_op. apply (gsum_map_ext' pok); [exact PO|].
      intros d Pd. rewrite mfz_succ by lia. rewrite mfz_dbl by (auto; lia). reflexivity.
    + assert (F' : Forall2 (fun pc d => PI n (S k) M' pc d /\ (affp (fst pc) d /\ exists c, nth_error (snd pc) k = Some c /\ linec c (zmul M (pQ d)) (zmul M (pQ d)))) ps ds).
      { revert F. apply Forall2_impl'. intros pc d H. 
        destruct (PI_dbl n k M pc d B H) as (X & Y). rewrite ST, Z.add_0_r. destruct H as [H _]. auto. }
      apply Forall2_split in F'. destruct F' as [G1 G2].
      destruct (ell_all_ok k _ _ ps ds G2 f1 a1 R1 N1) as (f2 & a2 & E2' & R2 & N2 & V2). rewrite E2'. cbn [obind].
      apply (IH (S k) f2 a2); [lia|exact G1|exact R2|exact N2| |lia].
      rewrite V2, V1, EV, ST, Z.add_0_r. rewrite <- !gsum_map_op. apply (gsum_map_ext' pok); [exact PO|].
      intros d Pd. rewrite mfz_dbl by (auto; lia). reflexivity.
Qed.

(** * miller_loop and calculate *)
Fixpoint plen (n : nat) : nat := match n with O => O | S i => if eff_bit i then S (S (plen i)) else S (plen i) end.
Lemma pre_len : forall n r q, length (pre_loop n r q) = plen n.
Proof. induction n as [|n IH]; intros r q; [reflexivity|]. cbn [pre_loop plen]. cbv zeta. destruct (eff_bit n); cbn [length]; rewrite IH; reflexivity. Qed.
Lemma plen_63 : plen 63 = 68%nat. Proof. reflexivity. Qed.
Lemma pre_ok q : g2_isZero q = false -> pre_compute q = Ok (pre_loop 63 q q).
Proof.
  intros H. unfold pre_compute. rewrite H. unfold store68. rewrite pre_len, plen_63. change (68 <=? 68)%nat with true. cbv iota.
  change (68 - 68)%nat with 0%nat. cbn [repeat]. rewrite app_nil_r. reflexivity.
Qed.
(** the affine form of a pair of points, neither of them the identity *)
Definition apair (pq : g1 * g2) (PQ : E1 * E2) : Prop :=
  canon (jx (fst pq)) /\ canon (jy (fst pq)) /\ cpt (b := b1) (fst PQ) = A1 (dec (jx (fst pq))) (dec (jy (fst pq))) /\
  affq (snd pq) (snd PQ) /\ rep2 (jz (snd pq)) F2_1 /\ zmul order (snd PQ) = gid.
Definition pd (pq : g1 * g2) (PQ : E1 * E2) : pdata := (dec (jx (fst pq)), dec (jy (fst pq)), snd PQ).
Lemma epair_mf P Q (x y : Fp) : cpt (b := b1) P = A1 x y -> epair P Q = ginv (mfz eff (x, y, Q)).
Proof.
  intros E. unfold epair. rewrite E. apply (f_equal ginv). unfold mfz, plc. cbn [px py pQ fst snd].
  assert (X : Xn = Z.to_nat eff) by (rewrite eff_Xz, <- Xn_z; symmetry; apply Nat2Z.id). rewrite X. reflexivity.
Qed.
Lemma jz_one_nz (q : g2) : rep2 (jz q) F2_1 -> g2_isZero q = false.
Proof.
  intros [C D]. unfold g2_isZero, j_isZero. apply not_true_iff_false. intros H. apply F2_1_neq_0. rewrite <- D.
  apply (r_isz _ _ _ _ fp2_represents); [exact C|exact H].
Qed.
Lemma pre_all_ok ps L : Forall2 apair ps L ->
  exists cs ds, pre_all ps = Ok cs /\ Forall2 (PI 63 0 1) cs ds /\ gsum (map (fun PQ => epair (fst PQ) (snd PQ)) L) = ginv (gsum (map (mfz eff) ds)).
Proof.
  induction 1 as [|[p q] [P Q] ps L H _ (cs & ds & E & F & S)].
  - exists [], []. split; [reflexivity|]. split; [constructor|]. symmetry. apply g_inv_0.
  - destruct H as (CX & CY & EP & AQ & RZ & HQ). cbn [fst snd] in *.
    exists ((p, pre_loop 63 q q) :: cs), ((dec (jx p), dec (jy p), Q) :: ds). split; [|split].
    + cbn [pre_all]. rewrite (pre_ok q (jz_one_nz q RZ)). cbn [obind]. rewrite E. reflexivity.
    + constructor; [|exact F]. destruct (E1_pt P _ _ EP) as [O Y]. split; [|split].
      * split; [exact CX|]. split; [exact CY|]. split; [reflexivity|]. split; [reflexivity|exact Y].
      * split; [exact O|]. split; [exact Y|]. split; [exact HQ|]. intros Z. destruct AQ as (_ & _ & AQ). unfold pQ in Z. cbn [snd] in Z. rewrite Z in AQ. discriminate AQ.
      * exists q, q, [], []. split; [exact AQ|]. unfold pQ. cbn [snd]. rewrite zmul_1. split.
        { destruct AQ as (C1 & C2 & AQ). destruct RZ as [CZ DZ]. split; [exact C1|]. split; [exact C2|]. split; [exact CZ|]. split; [rewrite DZ; exact F2_1_neq_0|].
          exists (dec2 (jx q)), (dec2 (jy q)). split; [exact AQ|]. rewrite DZ. split; ring. }
        split; [|reflexivity]. generalize (pre_loop 63 q q). intros l. symmetry. exact (app_nil_r l).
    + cbn [map fst snd]. unfold gsum in *. cbn [fold_right]. rewrite S, (epair_mf P Q _ _ EP). symmetry. apply g_inv_op.
Qed.
Theorem calculate_ok ps L : Forall2 apair ps L ->
  exists f, calculate ps = Ok f /\ rep12 f (uval (gsum (map (fun PQ => epair (fst PQ) (snd PQ)) L))).
Proof.
  intros F. destruct F as [|pq PQ ps L H F].
  - exists fp12_one. split; [reflexivity|]. split; [exact canon12_one|]. rewrite dec12_one. symmetry. exact uval_id.
  - pose proof (Forall2_cons pq PQ H F) as F'. destruct (pre_all_ok _ _ F') as (cs & ds & E & G & S).
    unfold calculate, miller_loop. rewrite E. cbn [obind].
    destruct (mil_ok cs ds 63 0 fp12_one F12_1) as (f & a & M & R & N & V).
    + lia.
    + rewrite eff_63. exact G.
    + split; [exact canon12_one|exact dec12_one].
    + exact F12_1_neq_0.
    + rewrite eff_63, ev_1. symmetry. etransitivity; [apply (gsum_map_ext _ (fun _ => gid)); exact mfz_1|apply gsum_map_id].
    + reflexivity.
    + rewrite M. cbn [obind]. exists (final_exponentiation (fp12_conj f)). split; [reflexivity|]. rewrite S, <- V, <- (ev_cj a N).
      apply final_ok.
      * intros Z. apply N. transitivity (F12conj (F12conj a)); [apply F12_eq; [|f12_unf; apply F6_eq; f6_unf; ring]; reflexivity|]. rewrite Z. apply F12_eq; [reflexivity|]. f12_unf. apply F6_eq; f6_unf; ring.
      * destruct R as [C D]. split; [apply canon12_conj, C|]. rewrite dec12_conj, D by exact C. reflexivity.
Qed.

(** * lists of pairs built by add_pair *)
Definition rpair (pq : g1 * g2) (PQ : E1 * E2) : Prop := rep1g (fst pq) (fst PQ) /\ rep2g (snd pq) (snd PQ) /\ zmul order (snd PQ) = gid.
Definition add_pairs (ps : list (g1 * g2)) (l : list (g1 * g2)) : list (g1 * g2) := fold_left (fun ps pq => add_pair ps (fst pq) (snd pq)) l ps.
Definition esum (L : list (E1 * E2)) : U12 := gsum (map (fun PQ => epair (fst PQ) (snd PQ)) L).
Lemma esum_app L L' : esum (L ++ L') = gop (esum L) (esum L').
Proof. unfold esum. rewrite map_app. unfold gsum. induction (map _ L) as [|u l IH]; cbn [app fold_right]; [symmetry; apply g_id|]. rewrite IH. symmetry. apply g_assoc. Qed.
Lemma affine_1 p (P : E1) : rep1g p P -> P <> gid -> canon (jx (g1_affine p)) /\ canon (jy (g1_affine p)) /\ cpt (b := b1) P = A1 (dec (jx (g1_affine p))) (dec (jy (g1_affine p))).
Proof.
  intros R N. destruct (cpt (b := b1) P) as [|u v] eqn:E; [elim N; apply curve_eq; exact E|]. unfold rep1g, rep1 in R. rewrite E in R.
  destruct (j_affine_coords fp_ops KFp canon dec fp_represents KFp_field p u v dec_inj R) as ([X1 X2] & [Y1 Y2] & _).
  unfold g1_affine. split; [exact X1|]. split; [exact Y1|]. rewrite X2, Y2. reflexivity.
Qed.
Lemma affine_2 p (P : E2) : rep2g p P -> P <> gid -> affq (g2_affine p) P /\ rep2 (jz (g2_affine p)) F2_1.
Proof.
  intros R N. destruct (cpt (b := b2) P) as [|u v] eqn:E; [elim N; apply curve_eq; exact E|]. unfold rep2g, rep2c in R. rewrite E in R.
  destruct (j_affine_coords fp2_ops KFp2 canon2 dec2 fp2_represents KFp2_field p u v dec2_inj R) as ([X1 X2] & [Y1 Y2] & Z).
  unfold g2_affine. split; [split; [exact X1|]; split; [exact Y1|]; rewrite X2, Y2; exact E|]. rewrite Z. split; [exact canon2_one|exact dec2_one].
Qed.
Lemma add_pair_ok ps L p q P Q : Forall2 apair ps L -> rpair (p, q) (P, Q) -> exists L', Forall2 apair (add_pair ps p q) L' /\ esum L' = gop (esum L) (epair P Q).
Proof.
  intros F (R1 & R2 & HQ). cbn [fst snd] in *. unfold add_pair.
  destruct (g1_isZero p) eqn:Z1; [|destruct (g2_isZero q) eqn:Z2]; cbn [orb].
  - exists L. split; [exact F|]. apply (rep1g_isZero p P R1) in Z1. subst P. rewrite epair_id_l. symmetry. apply g_id_r.
  - exists L. split; [exact F|]. apply (rep2g_isZero q Q R2) in Z2. subst Q. rewrite epair_id_r. symmetry. apply g_id_r.
  - assert (N1 : P <> gid). { intros E. apply (rep1g_isZero p P R1) in E. congruence. }
    assert (N2 : Q <> gid). { intros E. apply (rep2g_isZero q Q R2) in E. congruence. }
    exists (L ++ [(P, Q)]). split.
    + apply Forall2_app; [exact F|]. constructor; [|constructor]. destruct (affine_1 p P R1 N1) as (X & Y & E). destruct (affine_2 q Q R2 N2) as (A & B).
      split; [exact X|]. split; [exact Y|]. split; [exact E|]. split; [exact A|]. split; [exact B|exact HQ].
    + rewrite esum_app. apply (f_equal (gop _)). unfold esum. cbn [map fst snd]. apply g_id_r.
Qed.
Lemma add_pairs_ok l M : Forall2 rpair l M -> forall ps L, Forall2 apair ps L -> exists L', Forall2 apair (add_pairs ps l) L' /\ esum L' = gop (esum L) (esum M).
Proof.
  induction 1 as [|[p q] [P Q] l M R _ IH]; intros ps L F.
  - exists L. split; [exact F|]. symmetry. apply g_id_r.
  - destruct (add_pair_ok ps L p q P Q F R) as (L1 & F1 & S1). destruct (IH _ _ F1) as (L2 & F2 & S2). exists L2. split; [exact F2|].
    rewrite S2, S1. apply g_assoc.
Qed.
Theorem pairing_ok l M : Forall2 rpair l M -> exists f, calculate (add_pairs [] l) = Ok f /\ rep12 f (uval (esum M)).
Proof.
  intros F. destruct (add_pairs_ok l M F [] [] (Forall2_nil _)) as (L & A & S). destruct (calculate_ok _ _ A) as (f & E & R). exists f. split; [exact E|].
  assert (X : esum M = esum L) by (rewrite S; symmetry; apply g_id). rewrite X. exact R.
Qed.
