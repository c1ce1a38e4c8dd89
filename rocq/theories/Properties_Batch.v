(** C85: verifying many signatures at once with weights ("small exponents"): the caller multiplies each public key by its weight, sums the
    weighted signatures and calls aggregate_verify once.
    Notation as in Properties_Sig: rep1g p P, rep2g q Q: the g1 (g2) value denotes the curve point; coords1, coords2: coordinates below p;
    key w: four 64-bit words; message m: fewer than 2^31 bytes. *)
From Coq Require Import ZArith Znumtheory List Bool Lia Field_theory.
From Verif Require Import SpecField SpecBytes SpecHash SpecCodec SpecKeys SpecCurve SpecMap SpecSig SpecPairing.
From Verif Require Import ModelWord ModelScalar ModelFp ModelTower ModelCurve ModelCodec ModelKdf ModelKeys ModelPairing ModelSig.
From Verif Require Import ScalarProof BytesProof KeysProof FieldProof FpProof TowerRefine.
From Verif Require Import AbGroup CurveProof CurveRefine2 CurveInst CurveReps CurveBase GenProof GroupCount Orders Cofactor PairUnits PairBilin PairSpec SigProof WireProof Properties_Curve Properties_Codec Properties_Sig Properties_Scheme Properties_Threshold.
Import ListNotations.
Local Open Scope Z_scope.

(** one public key, one message, one signature *)
Definition item : Type := g1 * list Z * g2.
Definition valid (x : item) : outcome bool := verify (fst (fst x)) (snd (fst x)) (snd x).
(** items with weights, through g1::scale, g2::weightedSum and aggregate_verify without the check for duplicates *)
Definition batch (l : list (item * list Z)) : outcome bool :=
  aggregate_verify (map (fun xw => g1_scale (fst (fst (fst xw))) (snd xw)) l) (map (fun xw => snd (fst (fst xw))) l)
    (g2_weightedSum (map (fun xw => snd (fst xw)) l) (map snd l)) false.
(** points of the subgroups, as after decoding with the checks *)
Definition checked (x : item) : Prop := coords1 (fst (fst x)) /\ g1_isOnCurve (fst (fst x)) = true /\ g1_inCorrectSubgroup (fst (fst x)) = true /\ message (snd (fst x)) /\
  coords2 (snd x) /\ g2_isOnCurve (snd x) = true /\ g2_inCorrectSubgroup (snd x) = true.

(** what a signature is off *)
Definition off (x : item) (S D : E2) : Prop := exists a H, rep1g (fst (fst x)) (zmul a G1gen) /\ message (snd (fst x)) /\ hash_to_curve (snd (fst x)) DST_SIG H /\ rep2g (snd x) S /\ S = gop (zmul a H) D.
Lemma checked_off x : checked x -> exists S D, off x S D /\ zmul order D = gid /\ (valid x = Ok true <-> D = gid).
Proof.
  intros (C & O1 & I1 & Hm & Cs & O2 & I2). destruct x as [[pk m] s]. cbn [fst snd] in *. unfold valid. cbn [fst snd]. destruct (msg_hash m Hm) as (H & HH & OH).
  destruct (rep1g_ex pk (proj1 C) (proj1 (proj2 C)) (proj2 (proj2 C)) O1) as (P & HP). apply (g1_inCorrectSubgroup_ok _ _ HP) in I1. destruct (sub1_cyclic P I1) as (a & ->).
  destruct (rep2g_ex s (proj1 Cs) (proj1 (proj2 Cs)) (proj2 (proj2 Cs)) O2) as (S & HS). apply (g2_inCorrectSubgroup_ok _ _ HS) in I2.
  assert (ES : S = gop (zmul a H) (gop S (ginv (zmul a H)))) by (rewrite g_swap, g_inv, g_id_r; reflexivity).
  exists S, (gop S (ginv (zmul a H))). split; [exists a, H; cbn [fst snd]; auto|]. split.
  { rewrite zmul_op, zmul_inv, I2, (zord a H OH), g_inv_0. apply g_id. }
  split.
  - intros V. destruct (verify_iff pk m s H C Cs Hm HH) as (b & E & Hb). rewrite V in E. injection E as <-. destruct (proj1 Hb eq_refl) as (a' & H1 & H2).
    rewrite (rep2g_fun _ _ _ HS H2), (dlog_eq a a' H OH (rep1g_fun _ _ _ HP H1)). apply g_inv.
  - intros E. rewrite E, g_id_r in ES. apply (verify_intro pk m s H a Hm HH HP). rewrite <- ES. exact HS.
Qed.
(** the batch passes exactly if the weighted sum of what the signatures are off vanishes *)
Lemma batch_ok (l : list (item * list Z)) (Y : list (E2 * E2)) : Forall2 (fun xw SD => off (fst xw) (fst SD) (snd SD)) l Y -> Forall key (map snd l) -> Z.of_nat (length l) < 2 ^ 64 ->
  exists b, batch l = Ok b /\ (b = true <-> wpts (map val (map snd l)) (map snd Y) = gid).
Proof.
  intros HZ Hw L. unfold batch.
  assert (X : exists T, keys_of (map (fun xw : item * list Z => g1_scale (fst (fst (fst xw))) (snd xw)) l) T /\ hashes_of (map (fun xw : item * list Z => snd (fst (fst xw))) l) T /\
     Forall message (map (fun xw : item * list Z => snd (fst (fst xw))) l) /\ Forall2 rep2g (map (fun xw : item * list Z => snd (fst xw)) l) (map fst Y) /\
     wpts (map val (map snd l)) (map fst Y) = gop (lsum T) (wpts (map val (map snd l)) (map snd Y))).
  { clear L. revert Hw. induction HZ as [|[[[pk m] s] w] [S D] l Y (a & H & Ha & Hm & HH & HS & ES) _ IH]; intros Hw.
    - exists []. repeat (split; [constructor|]). symmetry. apply g_id.
    - inversion_clear Hw as [|? ? [W _] Hw']. destruct (IH Hw') as (T & T1 & T2 & T3 & T4 & T5). cbn [fst snd] in *. exists ((val w * a, H) :: T). cbn [map fst snd].
      split; [constructor; [cbn [fst]; rewrite zmul_mul; exact (rep1g_scale _ _ w Ha W)|exact T1]|]. split; [constructor; [exact HH|exact T2]|]. split; [constructor; assumption|]. split; [constructor; assumption|].
      change (wpts (val w :: map val (map snd l)) (S :: map fst Y)) with (gop (zmul (val w) S) (wpts (map val (map snd l)) (map fst Y))).
      change (wpts (val w :: map val (map snd l)) (D :: map snd Y)) with (gop (zmul (val w) D) (wpts (map val (map snd l)) (map snd Y))).
      change (lsum ((val w * a, H) :: T)) with (gop (zmul (val w * a) H) (lsum T)). rewrite T5, ES, zmul_op, zmul_mul. apply g_swap4. }
  destruct X as (T & K & HT & Hm & R & ET).
  assert (RS : rep2g (g2_weightedSum (map (fun xw : item * list Z => snd (fst xw)) l) (map snd l)) (wpts (map val (map snd l)) (map fst Y))) by (apply weighted_pts; [exact R|exact Hw|rewrite map_length; exact L]).
  assert (CP : Forall coords1 (map (fun xw : item * list Z => g1_scale (fst (fst (fst xw))) (snd xw)) l)).
  { clear -K. unfold keys_of in K. induction K as [|p t ps T H _ IH]; constructor; [exact (rep1g_coords _ _ H)|exact IH]. }
  destruct (C50_accepts _ _ _ false CP Hm (rep2g_coords _ _ RS)) as (b & E & Hb). exists b. split; [exact E|]. rewrite Hb. split.
  - intros (_ & _ & T' & K' & HT' & RS'). pose proof (rep2g_fun _ _ _ RS RS') as EE. rewrite ET in EE. change (gsum (map (fun aH : BinInt.Z * E2 => zmul (fst aH) (snd aH)) T')) with (lsum T') in EE.
    rewrite (lsum_uniq _ _ T' T K' K HT' HT) in EE. apply (g_cancel (lsum T)). rewrite EE. symmetry. apply g_id_r.
  - intros E0. split; [rewrite !map_length; reflexivity|]. split; [discriminate|]. exists T. split; [exact K|]. split; [exact HT|]. rewrite ET, E0, g_id_r in RS. exact RS.
Qed.
Lemma checked_all l : Forall (fun xw : item * list Z => checked (fst xw)) l -> exists Y : list (E2 * E2), Forall2 (fun xw SD => off (fst xw) (fst SD) (snd SD)) l Y /\
  Forall2 (fun xw SD => zmul order (snd SD) = gid /\ (valid (fst xw) = Ok true <-> snd SD = gid)) l Y.
Proof.
  induction 1 as [|xw l C _ (Y & Z1 & Z2)]; [exists []; split; constructor|]. destruct (checked_off _ C) as (S & D & O & OD & V). exists ((S, D) :: Y). split; constructor; auto.
Qed.
(** valid signatures pass whatever the weights *)
Theorem C85_complete : forall l, Forall (fun xw => checked (fst xw) /\ key (snd xw) /\ valid (fst xw) = Ok true) l -> Z.of_nat (length l) < 2 ^ 64 -> batch l = Ok true.
Proof.
  intros l Hl L. assert (Hc : Forall (fun xw : item * list Z => checked (fst xw)) l) by (eapply Forall_impl; [|exact Hl]; cbv beta; intros ? ?; tauto).
  destruct (checked_all l Hc) as (Zs & Z1 & Z2). assert (Hw : Forall key (map snd l)) by (apply Forall_map; eapply Forall_impl; [|exact Hl]; cbv beta; intros ? ?; tauto).
  destruct (batch_ok l Zs Z1 Hw L) as (b & E & Hb). rewrite E. apply (f_equal Ok), Hb. clear -Z2 Hl. unfold wpts. induction Z2 as [|xw SD l Y (_ & V) _ IH]; [reflexivity|].
  inversion_clear Hl as [|? ? (_ & _ & V') Hl']. cbn [map combine]. rewrite gsum_cons, (IH Hl'), (proj1 V V'). cbn [fst snd]. rewrite zmul_id. apply g_id.
Qed.
(** If some signature is not valid, then whatever the other items and weights are there is exactly one residue of its weight modulo the group
    order for which the batch passes. *)
Theorem C85_sound : forall la x lb, Forall (fun xw => checked (fst xw) /\ key (snd xw)) la -> Forall (fun xw => checked (fst xw) /\ key (snd xw)) lb -> checked x -> valid x <> Ok true ->
  Z.of_nat (length la + S (length lb)) < 2 ^ 64 ->
  exists c, 0 <= c < order /\ forall w, key w -> exists b, batch (la ++ (x, w) :: lb) = Ok b /\ (b = true <-> val w mod order = c).
Proof.
  intros la x lb Ha Hb Cx V L.
  assert (S1 : forall l, Forall (fun xw : item * list Z => checked (fst xw) /\ key (snd xw)) l -> Forall (fun xw => checked (fst xw)) l /\ Forall key (map snd l)).
  { intros l Hl. split; [eapply Forall_impl; [|exact Hl]; cbv beta; intros ? ?; tauto|apply Forall_map; eapply Forall_impl; [|exact Hl]; cbv beta; intros ? ?; tauto]. }
  destruct (S1 la Ha) as [Ca Ka]. destruct (S1 lb Hb) as [Cb Kb]. clear S1. destruct (checked_all la Ca) as (Za & A1 & A2). destruct (checked_all lb Cb) as (Zb & B1 & B2).
  destruct (checked_off x Cx) as (S & D & O & OD & VD). assert (ND : D <> gid) by (intros E; apply V, VD, E).
  set (R := gop (wpts (map val (map snd la)) (map snd Za)) (wpts (map val (map snd lb)) (map snd Zb))).
  assert (OW : forall l Y, Forall2 (fun (xw : item * list BinInt.Z) (SD : E2 * E2) => zmul order (snd SD) = gid /\ (valid (fst xw) = Ok true <-> snd SD = gid)) l Y -> zmul order (wpts (map val (map snd l)) (map snd Y)) = gid).
  { intros l Y HZ. unfold wpts. induction HZ as [|xw SD l Y (O1 & _) _ IH]; [apply zmul_id|]. cbn [map combine]. rewrite gsum_cons, zmul_op, IH. cbn [fst snd]. rewrite (zord _ _ O1). apply g_id. }
  assert (OR : zmul order (ginv R) = gid) by (unfold R; rewrite zmul_inv, zmul_op, (OW _ _ A2), (OW _ _ B2), g_id; apply g_inv_0).
  destruct (sub2_complete _ OR) as (n & En). destruct (hit D n OD ND) as (c & Bc & Ec). rewrite <- En in Ec. exists c. split; [exact Bc|]. intros w Kw.
  assert (La : length (map val (map snd la)) = length (map snd Za)) by (rewrite !map_length; exact (Forall2_length _ _ _ A1)).
  destruct (batch_ok (la ++ (x, w) :: lb) (Za ++ (S, D) :: Zb)) as (b & E & Hbb).
  - apply Forall2_app; [exact A1|]. constructor; [exact O|exact B1].
  - rewrite map_app. cbn [map snd]. apply Forall_app. split; [exact Ka|]. constructor; [exact Kw|exact Kb].
  - rewrite app_length. cbn [length]. exact L.
  - exists b. split; [exact E|]. rewrite Hbb, !map_app. cbn [map snd]. rewrite (wpts_app _ _ _ _ La).
    change (wpts (val w :: map val (map snd lb)) (D :: map snd Zb)) with (gop (zmul (val w) D) (wpts (map val (map snd lb)) (map snd Zb))). rewrite g_swap. fold R.
    assert (X : gop (zmul (val w) D) R = gid <-> zmul (val w) D = zmul c D).
    { rewrite Ec. split; [intros X; rewrite g_comm in X; exact (g_inv_unique _ _ X)|intros ->; apply g_inv_l]. }
    rewrite X, (zmul_eq_mod _ _ _ OD ND), (Z.mod_small c) by exact Bc. reflexivity.
Qed.
(** so at most one weight below 2^128 (any weight below the group order) lets it pass *)
Theorem C85_one_weight : forall la x lb w w', Forall (fun xw => checked (fst xw) /\ key (snd xw)) la -> Forall (fun xw => checked (fst xw) /\ key (snd xw)) lb -> checked x -> valid x <> Ok true ->
  Z.of_nat (length la + S (length lb)) < 2 ^ 64 -> key w -> key w' -> val w < order -> val w' < order ->
  batch (la ++ (x, w) :: lb) = Ok true -> batch (la ++ (x, w') :: lb) = Ok true -> w = w'.
Proof.
  intros la x lb w w' Ha Hb Cx V L [W1 W2] [W1' W2'] B B' E E'. destruct (C85_sound la x lb Ha Hb Cx V L) as (c & _ & Hc).
  destruct (Hc w (conj W1 W2)) as (b & Eb & X). destruct (Hc w' (conj W1' W2')) as (b' & Eb' & X'). rewrite E in Eb. rewrite E' in Eb'. injection Eb as <-. injection Eb' as <-.
  pose proof (proj1 X eq_refl) as Y. pose proof (proj1 X' eq_refl) as Y'. pose proof (val_bound _ W1) as R. pose proof (val_bound _ W1') as R'.
  rewrite Z.mod_small in Y by (split; [apply R|exact B]). rewrite Z.mod_small in Y' by (split; [apply R'|exact B']). apply val_inj; congruence.
Qed.

(** Without the subgroup checks on the signatures this fails: for every key and message there is a signature on the curve that verify rejects and
    that a batch accepts exactly if its weight is a multiple of 13. *)
Lemma rep2g_surj (P : E2) : exists p, rep2g p P.
Proof.
  destruct (cpt (b := b2) P) as [|u v] eqn:E; [exists g2_zero; assert (X : P = gid) by (apply curve_eq; exact E); rewrite X; exact rep2g_zero|].
  exists (mkJ (enc2 u) (enc2 v) (enc2 F2_1)). unfold rep2g, rep2c, jrep, jcan. rewrite E. cbn [jx jy jz]. split; [split; [|split]; apply canon2_enc|]. rewrite !dec2_enc.
  unfold jacobian, kcube, ksq. split; [exact (Field_theory.F_1_neq_0 KFp2_field)|]. cbn [KFp2 kmul car]. split; apply F2_eq; unfold F2mul, F2_1; cbn [re im]; ring.
Qed.
Lemma T13 : exists T : E2, zmul 13 T = gid /\ forall k, zmul k T = gid -> (13 | k).
Proof.
  destruct U13_ex as (T & [H1 H2] & _). exists T. split; [exact H1|]. intros k Hk. apply (H2 k 0). rewrite Hk. apply g_id.
Qed.
Theorem C85_unchecked_refuted : forall k m, key k -> message m -> exists s, coords2 s /\ g2_isOnCurve s = true /\ valid (public_key k, m, s) = Ok false /\
  forall w, key w -> exists b, batch [((public_key k, m, s), w)] = Ok b /\ (b = true <-> (13 | val w)).
Proof.
  intros k m [W _] Hm. destruct (msg_hash m Hm) as (H & HH & OH). destruct T13 as (T & T1 & T2). destruct (rep2g_surj (gop (zmul (val k) H) T)) as (s & Hs). exists s.
  split; [exact (rep2g_coords _ _ Hs)|]. split; [exact (rep2g_onCurve _ _ Hs)|]. split.
  - unfold valid. cbn [fst snd]. destruct (verify_iff (public_key k) m s H (rep1g_coords _ _ (public_key_ok k W)) (rep2g_coords _ _ Hs) Hm HH) as (b & E & Hb). rewrite E. f_equal. apply not_true_is_false. intros Eb.
    destruct (proj1 Hb Eb) as (a & Ha & Hs'). pose proof (rep2g_fun _ _ _ Hs Hs') as EE. rewrite (dlog_eq a (val k) H OH (rep1g_fun _ _ _ Ha (public_key_ok k W))) in EE.
    rewrite <- (g_id_r (zmul (val k) H)) in EE at 2. apply g_cancel in EE. pose proof (T2 1 ltac:(rewrite zmul_1; exact EE)) as D. apply Z.divide_1_r_nonneg in D; lia.
  - intros w Kw. destruct (batch_ok [((public_key k, m, s), w)] [(gop (zmul (val k) H) T, T)]) as (b & E & Hb).
    + constructor; [|constructor]. exists (val k), H. cbn [fst snd]. split; [exact (public_key_ok k W)|]. auto.
    + constructor; [exact Kw|constructor].
    + reflexivity.
    + exists b. split; [exact E|]. rewrite Hb. cbn [map snd]. change (wpts [val w] [T]) with (gop (zmul (val w) T) gid). rewrite g_id_r. split; [apply T2|]. intros [q ->]. rewrite zmul_mul, T1. apply zmul_id.
Qed.
(** the batch without weights (all 1) is aggregate_verify of the sum, which two wrong signatures can pass: they swap an error *)
Theorem C85_unweighted_refuted : forall k1 k2 m1 m2, key k1 -> key k2 -> message m1 -> message m2 -> exists s1 s2, checked (public_key k1, m1, s1) /\ checked (public_key k2, m2, s2) /\
  valid (public_key k1, m1, s1) = Ok false /\ valid (public_key k2, m2, s2) = Ok false /\
  forall w1 w2, key w1 -> key w2 -> exists b, batch [((public_key k1, m1, s1), w1); ((public_key k2, m2, s2), w2)] = Ok b /\ (b = true <-> val w1 mod order = val w2 mod order).
Proof.
  intros k1 k2 m1 m2 [W1 _] [W2 _] Hm1 Hm2. destruct (msg_hash m1 Hm1) as (H1 & HH1 & O1). destruct (msg_hash m2 Hm2) as (H2 & HH2 & O2).
  destruct (rep2g_surj (gop (zmul (val k1) H1) G2gen)) as (s1 & R1). destruct (rep2g_surj (gop (zmul (val k2) H2) (ginv G2gen))) as (s2 & R2). exists s1, s2.
  assert (C : forall k m s (H D : E2), words k -> message m -> zmul order H = gid -> zmul order D = gid -> rep2g s (gop (zmul (val k) H) D) -> checked (public_key k, m, s)).
  { intros k m s H D Wk Hm OH OD R. pose proof (public_key_ok k Wk) as P. unfold checked. cbn [fst snd]. split; [exact (rep1g_coords _ _ P)|]. split; [exact (rep1g_onCurve _ _ P)|].
    split; [apply (g1_inCorrectSubgroup_ok _ _ P), zord, G1gen_r|]. split; [exact Hm|]. split; [exact (rep2g_coords _ _ R)|]. split; [exact (rep2g_onCurve _ _ R)|].
    apply (g2_inCorrectSubgroup_ok _ _ R). rewrite zmul_op, (zord _ _ OH), OD. apply g_id. }
  assert (V : forall k m s (H D : E2), words k -> message m -> hash_to_curve m DST_SIG H -> D <> gid -> rep2g s (gop (zmul (val k) H) D) -> valid (public_key k, m, s) = Ok false).
  { intros k m s H D Wk Hm HH ND Hs. unfold valid. cbn [fst snd]. pose proof (hash_order _ _ _ HH) as OH.
    destruct (verify_iff (public_key k) m s H (rep1g_coords _ _ (public_key_ok k Wk)) (rep2g_coords _ _ Hs) Hm HH) as (b & E & Hb). rewrite E. f_equal. apply not_true_is_false. intros Eb.
    destruct (proj1 Hb Eb) as (a & Ha & Hs'). pose proof (rep2g_fun _ _ _ Hs Hs') as EE. rewrite (dlog_eq a (val k) H OH (rep1g_fun _ _ _ Ha (public_key_ok k Wk))) in EE.
    rewrite <- (g_id_r (zmul (val k) H)) in EE at 2. apply g_cancel in EE. exact (ND EE). }
  assert (OI : zmul order (ginv G2gen) = gid) by (rewrite zmul_inv, G2gen_r; apply g_inv_0).
  assert (NI : ginv G2gen <> gid) by (intros E; apply G2gen_nz; rewrite <- (g_inv_inv G2gen), E; apply g_inv_0).
  split; [exact (C k1 m1 s1 H1 _ W1 Hm1 O1 G2gen_r R1)|]. split; [exact (C k2 m2 s2 H2 _ W2 Hm2 O2 OI R2)|].
  split; [exact (V k1 m1 s1 H1 _ W1 Hm1 HH1 G2gen_nz R1)|]. split; [exact (V k2 m2 s2 H2 _ W2 Hm2 HH2 NI R2)|]. clear C V.
  intros w1 w2 Kw1 Kw2. destruct (batch_ok [((public_key k1, m1, s1), w1); ((public_key k2, m2, s2), w2)] [(gop (zmul (val k1) H1) G2gen, G2gen); (gop (zmul (val k2) H2) (ginv G2gen), ginv G2gen)]) as (b & E & Hb).
  - constructor; [|constructor; [|constructor]]; [exists (val k1), H1|exists (val k2), H2]; cbn [fst snd]; (split; [apply public_key_ok; assumption|]); auto.
  - constructor; [exact Kw1|constructor; [exact Kw2|constructor]].
  - reflexivity.
  - exists b. split; [exact E|]. rewrite Hb. cbn [map snd]. change (wpts [val w1; val w2] [G2gen; ginv G2gen]) with (gop (zmul (val w1) G2gen) (gop (zmul (val w2) (ginv G2gen)) gid)).
    rewrite g_id_r, zmul_inv, <- (zmul_eq_mod _ _ _ G2gen_r G2gen_nz). split; [apply g_sub0|]. intros ->. apply g_inv.
Qed.
(** items as required exist: two wrong signatures of the messages [] and [1] under the keys 1 and 2, which pass with the weights 5 and 5 and with
    the weights 5 and 5 + r, and not with the weights 5 and 6 *)
Example C85_nontrivial : exists s1 s2 : g2, let x1 := (public_key [1; 0; 0; 0], [], s1) in let x2 := (public_key [2; 0; 0; 0], [1], s2) in
  checked x1 /\ checked x2 /\ valid x1 = Ok false /\ valid x2 = Ok false /\ batch [(x1, [5; 0; 0; 0]); (x2, [5; 0; 0; 0])] = Ok true /\
  batch [(x1, [5; 0; 0; 0]); (x2, limbs_of 4 (5 + order))] = Ok true /\ batch [(x1, [5; 0; 0; 0]); (x2, [6; 0; 0; 0])] = Ok false.
Proof.
  assert (K : forall z, 0 <= z < 2 ^ 64 -> key [z; 0; 0; 0]) by (intros z B; split; [constructor; [exact B|wrd]|reflexivity]).
  destruct (C85_unweighted_refuted [1; 0; 0; 0] [2; 0; 0; 0] [] [1] (K 1 ltac:(lia)) (K 2 ltac:(lia))) as (s1 & s2 & C1 & C2 & V1 & V2 & Hb).
  { split; [constructor|reflexivity]. }
  { split; [constructor; [split; [discriminate|reflexivity]|constructor]|reflexivity]. }
  exists s1, s2. split; [exact C1|]. split; [exact C2|]. split; [exact V1|]. split; [exact V2|]. pose proof (K 5 ltac:(lia)) as K5.
  split; [|split].
  - destruct (Hb _ _ K5 K5) as (b & -> & X). apply (f_equal Ok), X. reflexivity.
  - destruct (Hb _ (limbs_of 4 (5 + order)) K5 (conj (limbs_of_words _ _) (limbs_of_length _ _))) as (b & -> & X). apply (f_equal Ok), X. vm_compute. reflexivity.
  - destruct (Hb _ _ K5 (K 6 ltac:(lia))) as (b & -> & X). f_equal. apply not_true_is_false. intros T. apply X in T. vm_compute in T. discriminate T.
Qed.

(** honest signatures of [] and [1] under the keys 1 and 2 pass with the weights 5 and 6 *)
Example C85_honest : exists s1 s2, sign [1; 0; 0; 0] [] = Ok s1 /\ sign [2; 0; 0; 0] [1] = Ok s2 /\
  batch [((public_key [1; 0; 0; 0], [], s1), [5; 0; 0; 0]); ((public_key [2; 0; 0; 0], [1], s2), [6; 0; 0; 0])] = Ok true.
Proof.
  assert (K : forall z, 0 <= z < 2 ^ 64 -> key [z; 0; 0; 0]) by (intros z B; split; [constructor; [exact B|wrd]|reflexivity]).
  assert (M0 : message []) by (split; [constructor|reflexivity]). assert (M1 : message [1]) by (split; [constructor; [split; [discriminate|reflexivity]|constructor]|reflexivity]).
  assert (X : forall k m, key k -> message m -> exists s, sign k m = Ok s /\ checked (public_key k, m, s) /\ valid (public_key k, m, s) = Ok true).
  { intros k m Kk Hm. destruct (C47_honest k m Kk Hm) as (s & E & V). destruct (sign_ok k m (proj1 Kk) Hm) as (s' & H & E' & _ & R & _). rewrite E in E'. injection E' as <-.
    pose proof (public_key_ok k (proj1 Kk)) as P. exists s. split; [exact E|]. split; [|exact V]. destruct (C48_checked _ _ _ (rep1g_coords _ _ P) (rep2g_coords _ _ R) Hm V) as (A1 & A2 & A3 & A4).
    exact (conj (rep1g_coords _ _ P) (conj A1 (conj A2 (conj Hm (conj (rep2g_coords _ _ R) (conj A3 A4)))))). }
  destruct (X _ _ (K 1 ltac:(lia)) M0) as (s1 & E1 & C1 & V1). destruct (X _ _ (K 2 ltac:(lia)) M1) as (s2 & E2 & C2 & V2). exists s1, s2. split; [exact E1|]. split; [exact E2|].
  apply C85_complete; [|reflexivity]. constructor; [exact (conj C1 (conj (K 5 ltac:(lia)) V1))|]. constructor; [exact (conj C2 (conj (K 6 ltac:(lia)) V2))|constructor].
Qed.
(** a wrong signature among right ones, as in C84_one_wrong: one honest share and one wrong share, both of the message [1] *)
Lemma two_wrong p1 s1 w1 p2 s2 w m : coords1 p1 -> coords2 s1 -> checked (p2, m, s2) -> key w1 -> key w -> verify p1 m s1 = Ok true -> valid (p2, m, s2) = Ok false ->
  exists b, verify (g1_weightedSum [p1; p2] [w1; w]) m (g2_weightedSum [s1; s2] [w1; w]) = Ok b /\ (b = true <-> val w mod order = 0).
Proof.
  intros A1 A2 (C1 & C2 & C3 & M & C4 & C5 & C6) K1 K V V2. exact (C84_one_wrong [p1] [s1] [w1] p2 s2 w [] [] [] m
      (Forall_cons _ A1 (Forall_nil _)) (Forall_cons _ A2 (Forall_nil _)) C1 C4 (Forall_nil _) (Forall_nil _)
      (Forall_cons _ K1 (Forall_cons _ K (Forall_nil _))) M eq_refl eq_refl eq_refl (Forall2_cons _ _ V (Forall2_nil _)) (Forall2_nil _) C2 C3 C5 C6 V2).
Qed.
Lemma wrong_ex p1 p2 m k1 k2 w1 wa wb : p1 = public_key k1 -> p2 = public_key k2 -> key k1 -> key k2 -> message m -> key w1 -> key wa -> key wb -> val wa mod order <> 0 -> val wb mod order = 0 ->
  exists s1 s2, verify p1 m s1 = Ok true /\ verify p2 m s2 = Ok false /\
  verify (g1_weightedSum [p1; p2] [w1; wa]) m (g2_weightedSum [s1; s2] [w1; wa]) = Ok false /\ verify (g1_weightedSum [p1; p2] [w1; wb]) m (g2_weightedSum [s1; s2] [w1; wb]) = Ok true.
Proof.
  intros E1 E2 K1 K2 M Kw Ka Kb Na Nb. destruct (C47_honest k1 m K1 M) as (s1 & E & V). destruct (sign_ok k1 m (proj1 K1) M) as (s' & H & E' & _ & R & _). rewrite E in E'. injection E' as <-.
  pose proof (rep1g_coords _ _ (public_key_ok k1 (proj1 K1))) as P. destruct (C85_unweighted_refuted k2 k2 m m K2 K2 M M) as (s2 & _ & C & _ & V2 & _). rewrite <- E1 in V, P. rewrite <- E2 in C, V2.
  exists s1, s2. split; [exact V|]. split; [exact V2|]. split.
  - destruct (two_wrong p1 s1 w1 p2 s2 wa m P (rep2g_coords _ _ R) C Kw Ka V V2) as (b & -> & Y). f_equal. apply not_true_is_false. intros T. apply Na, Y, T.
  - destruct (two_wrong p1 s1 w1 p2 s2 wb m P (rep2g_coords _ _ R) C Kw Kb V V2) as (b & -> & Y). apply (f_equal Ok), Y, Nb.
Qed.
Example C84_wrong_nontrivial : exists s1 s2, verify (public_key [1; 0; 0; 0]) [1] s1 = Ok true /\ verify (public_key [2; 0; 0; 0]) [1] s2 = Ok false /\
  verify (g1_weightedSum [public_key [1; 0; 0; 0]; public_key [2; 0; 0; 0]] [[3; 0; 0; 0]; [4; 0; 0; 0]]) [1] (g2_weightedSum [s1; s2] [[3; 0; 0; 0]; [4; 0; 0; 0]]) = Ok false /\
  verify (g1_weightedSum [public_key [1; 0; 0; 0]; public_key [2; 0; 0; 0]] [[3; 0; 0; 0]; limbs_of 4 order]) [1] (g2_weightedSum [s1; s2] [[3; 0; 0; 0]; limbs_of 4 order]) = Ok true.
Proof.
  apply (wrong_ex _ _ [1] [1; 0; 0; 0] [2; 0; 0; 0] [3; 0; 0; 0] [4; 0; 0; 0] (limbs_of 4 order) eq_refl eq_refl).
  - split; [wrd|reflexivity].
  - split; [wrd|reflexivity].
  - split; [constructor; [split; [discriminate|reflexivity]|constructor]|reflexivity].
  - split; [wrd|reflexivity].
  - split; [wrd|reflexivity].
  - split; [apply limbs_of_words|apply limbs_of_length].
  - vm_compute. discriminate.
  - vm_compute. reflexivity.
Qed.
Definition props_batch := (C85_complete, C85_sound, C85_one_weight, C85_unchecked_refuted, C85_unweighted_refuted).
Print Assumptions props_batch.
