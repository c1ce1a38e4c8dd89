(** C84: threshold signing.  Shares of a key, combined with weights by weightedSum, act like the key exactly if the weighted sum of the shares
    is the key modulo the group order; Shamir's scheme provides such shares and weights.
    Notation as in Properties_Sig: rep1g p P, rep2g q Q: the g1 (g2) value denotes the curve point; coords1, coords2: coordinates below p;
    key k: four 64-bit words; message m: fewer than 2^31 bytes.  wsum, poly, distinct_mod: SpecThreshold. *)
From Coq Require Import ZArith Znumtheory List Bool Lia.
From Verif Require Import SpecField SpecBytes SpecHash SpecCodec SpecKeys SpecCurve SpecMap SpecSig SpecPairing SpecThreshold.
From Verif Require Import ModelWord ModelScalar ModelFp ModelTower ModelCurve ModelCodec ModelKdf ModelKeys ModelPairing ModelSig.
From Verif Require Import ScalarProof BytesProof KeysProof FieldProof FpProof TowerRefine.
From Verif Require Import AbGroup CurveProof CurveInst CurveReps CurveBase GenProof Orders Cofactor PairUnits PairBilin PairSpec SigProof ThresholdProof Properties_Curve Properties_Codec Properties_Sig Properties_Scheme.
Import ListNotations.
Local Open Scope Z_scope.

Lemma short_combine {A B} (l : list A) (l' : list B) : Z.of_nat (length l) < 2 ^ 64 -> Z.of_nat (length (combine l l')) < 2 ^ 64.
Proof. intros H. rewrite combine_length. pose proof (Nat.le_min_l (length l) (length l')). clear -H H0. lia. Qed.
Lemma weighted1 ps xs ws (G : E1) : Forall2 (fun p a => rep1g p (zmul a G)) ps xs -> Forall key ws -> Z.of_nat (length ps) < 2 ^ 64 ->
  rep1g (g1_weightedSum ps ws) (zmul (wsum (map val ws) xs) G).
Proof.
  intros Hp Hw L. set (l := map (fun wa : Z * Z => (zmul (snd wa) G, fst wa)) (combine (map val ws) xs)).
  assert (P : pairs1 ps ws l).
  { unfold pairs1, l. clear L l. revert ws Hw. induction Hp as [|p a ps xs H _ IH]; intros ws Hw; [destruct ws; constructor|].
    destruct Hw as [|w ws [W4 W5] Hw]; [constructor|]. cbn [map combine]. constructor; [|exact (IH ws Hw)].
    cbn [fst snd]. split; [exact H|]. split; [exact W4|]. split; [exact W5|reflexivity]. }
  pose proof (C29_weightedSum_g1 ps ws l P (short_combine _ _ L)) as R.
  replace (zmul (wsum (map val ws) xs) G) with (gsum (map (fun Pk : E1 * Z => zmul (snd Pk) (fst Pk)) l)); [exact R|].
  unfold l. clear. revert xs. induction (map val ws) as [|w vs IH]; intros [|x xs]; cbn [combine map wsum]; try reflexivity.
  rewrite gsum_cons, IH. cbn [fst snd]. rewrite zmul_add, zmul_mul. reflexivity.
Qed.
Lemma weighted2 ps xs ws (G : E2) : Forall2 (fun p a => rep2g p (zmul a G)) ps xs -> Forall key ws -> Z.of_nat (length ps) < 2 ^ 64 ->
  rep2g (g2_weightedSum ps ws) (zmul (wsum (map val ws) xs) G).
Proof.
  intros Hp Hw L. set (l := map (fun wa : Z * Z => (zmul (snd wa) G, fst wa)) (combine (map val ws) xs)).
  assert (P : pairs2 ps ws l).
  { unfold pairs2, l. clear L l. revert ws Hw. induction Hp as [|p a ps xs H _ IH]; intros ws Hw; [destruct ws; constructor|].
    destruct Hw as [|w ws [W4 W5] Hw]; [constructor|]. cbn [map combine]. constructor; [|exact (IH ws Hw)].
    cbn [fst snd]. split; [exact H|]. split; [exact W4|]. split; [exact W5|reflexivity]. }
  pose proof (C29_weightedSum_g2 ps ws l P (short_combine _ _ L)) as R.
  replace (zmul (wsum (map val ws) xs) G) with (gsum (map (fun Pk : E2 * Z => zmul (snd Pk) (fst Pk)) l)); [exact R|].
  unfold l. clear. revert xs. induction (map val ws) as [|w vs IH]; intros [|x xs]; cbn [combine map wsum]; try reflexivity.
  rewrite gsum_cons, IH. cbn [fst snd]. rewrite zmul_add, zmul_mul. reflexivity.
Qed.
Lemma keys_rep ks : Forall key ks -> Forall2 (fun p a => rep1g p (zmul a G1gen)) (map public_key ks) (map val ks).
Proof. induction 1 as [|k ks [W _] _ IH]; cbn [map]; constructor; [exact (public_key_ok k W)|exact IH]. Qed.
Lemma sigs_rep ks sigs m (H : E2) : message m -> hash_to_curve m DST_SIG H -> Forall key ks -> Forall2 (fun k s => sign k m = Ok s) ks sigs ->
  Forall2 (fun p a => rep2g p (zmul a H)) sigs (map val ks).
Proof.
  intros Hm HH Hk Hs. revert Hk. induction Hs as [|k s ks sigs E _ IH]; intros Hk; cbn [map]; [constructor|].
  inversion_clear Hk as [|? ? [W _] Hk']. constructor; [|exact (IH Hk')].
  destruct (sign_ok k m W Hm) as (s' & H' & E' & HH' & R & _). rewrite E in E'. injection E' as <-. rewrite (hash_fun _ _ _ _ HH HH'). exact R.
Qed.

(** the weighted sum of the public keys of the shares is the public key exactly if the weighted sum of the shares is the key *)
Theorem C84_keys : forall ks ws k, Forall key ks -> Forall key ws -> key k -> Z.of_nat (length ks) < 2 ^ 64 ->
  (g1_equal (g1_weightedSum (map public_key ks) ws) (public_key k) = true <-> wsum (map val ws) (map val ks) mod order = val k mod order).
Proof.
  intros ks ws k Hk Hw [W _] L. assert (L' : Z.of_nat (length (map public_key ks)) < 2 ^ 64) by (rewrite map_length; exact L).
  rewrite (rep1g_equal _ _ _ _ (weighted1 _ _ _ _ (keys_rep ks Hk) Hw L') (public_key_ok k W)). exact (zmul_eq_mod _ _ _ G1gen_r G1gen_nz).
Qed.
(** the weighted sum of the partial signatures is accepted for the key exactly then, unless the message hashes to the identity; and it is then
    the signature under the key *)
Theorem C84_signatures : forall ks ws k m sigs (H : E2), Forall key ks -> Forall key ws -> key k -> message m -> Z.of_nat (length ks) < 2 ^ 64 ->
  hash_to_curve m DST_SIG H -> Forall2 (fun k s => sign k m = Ok s) ks sigs ->
  (exists b, verify (public_key k) m (g2_weightedSum sigs ws) = Ok b /\
    (b = true <-> wsum (map val ws) (map val ks) mod order = val k mod order \/ H = gid)) /\
  (exists s, sign k m = Ok s /\ (g2_equal (g2_weightedSum sigs ws) s = true <-> wsum (map val ws) (map val ks) mod order = val k mod order \/ H = gid)).
Proof.
  intros ks ws k m sigs H Hk Hw [W _] Hm L HH Hs. pose proof (hash_order _ _ _ HH) as OH. pose proof (sigs_rep ks sigs m H Hm HH Hk Hs) as R.
  assert (L' : Z.of_nat (length sigs) < 2 ^ 64) by (rewrite <- (Forall2_length _ _ _ Hs); exact L).
  pose proof (weighted2 _ _ _ _ R Hw L') as RS. set (c := wsum (map val ws) (map val ks)) in *.
  assert (EQ : zmul c H = zmul (val k) H <-> c mod order = val k mod order \/ H = gid).
  { destruct (g_dec _ H gid) as [->|N]; [rewrite !zmul_id; tauto|]. rewrite (zmul_eq_mod _ _ _ OH N). tauto. }
  split.
  - destruct (verify_iff (public_key k) m _ H (rep1g_coords _ _ (public_key_ok k W)) (rep2g_coords _ _ RS) Hm HH) as (b & E & Hb).
    exists b. split; [exact E|]. rewrite Hb, <- EQ. split.
    + intros (a & Ha & Hs'). pose proof (rep1g_fun _ _ _ Ha (public_key_ok k W)) as Ea. rewrite (rep2g_fun _ _ _ RS Hs').
      destruct (G1_dlog _ _ Ea) as [q Eq]. replace a with (val k + q * order) by (clear -Eq; lia). rewrite zmul_add, zmul_mul, OH, zmul_id. apply g_id_r.
    + intros E'. exists (val k). split; [exact (public_key_ok k W)|rewrite <- E'; exact RS].
  - destruct (sign_ok k m W Hm) as (s & H' & E & HH' & Rs & _). rewrite <- (hash_fun _ _ _ _ HH HH') in Rs. exists s. split; [exact E|].
    rewrite (rep2g_equal _ _ _ _ RS Rs). exact EQ.
Qed.
(** whatever the keys are: the weighted sum of accepted signatures is accepted for the weighted sum of the keys *)
Lemma accepted_list m (H : E2) pks sigs : message m -> hash_to_curve m DST_SIG H -> Forall coords1 pks -> Forall coords2 sigs ->
  Forall2 (fun pk s => verify pk m s = Ok true) pks sigs ->
  exists xs, Forall2 (fun p a => rep1g p (zmul a G1gen)) pks xs /\ Forall2 (fun p a => rep2g p (zmul a H)) sigs xs.
Proof.
  intros Hm HH C D V. revert C D. induction V as [|pk s pks sigs V _ IH]; intros C D; [exists []; split; constructor|].
  inversion_clear C as [|? ? C1 C2]. inversion_clear D as [|? ? D1 D2]. destruct (IH C2 D2) as (xs & A1 & A2).
  destruct (accepted pk m s C1 D1 Hm V) as (H' & a & HH' & Ha & Hs). rewrite <- (hash_fun _ _ _ _ HH HH') in Hs.
  exists (a :: xs). split; constructor; assumption.
Qed.
Theorem C84_accepted : forall pks sigs ws m, Forall coords1 pks -> Forall coords2 sigs -> Forall key ws -> message m -> Z.of_nat (length pks) < 2 ^ 64 ->
  Forall2 (fun pk s => verify pk m s = Ok true) pks sigs -> verify (g1_weightedSum pks ws) m (g2_weightedSum sigs ws) = Ok true.
Proof.
  intros pks sigs ws m C D Hw Hm L V. destruct (msg_hash m Hm) as (H & HH & _). destruct (accepted_list m H pks sigs Hm HH C D V) as (xs & A1 & A2).
  apply (verify_intro _ m _ H (wsum (map val ws) xs) Hm HH); [exact (weighted1 _ _ _ _ A1 Hw L)|].
  apply weighted2; [exact A2|exact Hw|]. rewrite <- (Forall2_length _ _ _ V). exact L.
Qed.
(** one wrong partial signature among right ones is noticed in the sum, unless its weight is 0 modulo the group order *)
Definition wpts {G : abgroup} (ws : list Z) (Ps : list G) : G := gsum (map (fun wP : Z * G => zmul (fst wP) (snd wP)) (combine ws Ps)).
Lemma wpts_app {G : abgroup} ws ws' (Ps Ps' : list G) : length ws = length Ps -> wpts (ws ++ ws') (Ps ++ Ps') = gop (wpts ws Ps) (wpts ws' Ps').
Proof.
  revert Ps. induction ws as [|w ws IH]; intros [|P Ps] L; try discriminate L; cbn [app]; [symmetry; apply g_id|].
  unfold wpts in *. cbn [combine map]. rewrite !gsum_cons, IH by (injection L; auto). symmetry. apply g_assoc.
Qed.
Lemma wpts_mul {G : abgroup} (g : G) xs : forall ws, wpts ws (map (fun a => zmul a g) xs) = zmul (wsum ws xs) g.
Proof.
  unfold wpts. induction xs as [|x xs IH]; intros [|w ws]; cbn [combine map wsum]; try reflexivity.
  rewrite gsum_cons, IH. cbn [fst snd]. rewrite zmul_add, zmul_mul. reflexivity.
Qed.
Lemma weighted_pts ps Ps ws : Forall2 rep2g ps Ps -> Forall key ws -> Z.of_nat (length ps) < 2 ^ 64 -> rep2g (g2_weightedSum ps ws) (wpts (map val ws) Ps).
Proof.
  intros Hp Hw L. set (l := map (fun wP : Z * E2 => (snd wP, fst wP)) (combine (map val ws) Ps)).
  assert (P : pairs2 ps ws l).
  { unfold pairs2, l. clear L l. revert ws Hw. induction Hp as [|p a ps xs H _ IH]; intros ws Hw; [destruct ws; constructor|].
    destruct Hw as [|w ws [W4 W5] Hw]; [constructor|]. cbn [map combine]. constructor; [|exact (IH ws Hw)].
    cbn [fst snd]. split; [exact H|]. split; [exact W4|]. split; [exact W5|reflexivity]. }
  pose proof (C29_weightedSum_g2 ps ws l P (short_combine _ _ L)) as R. unfold l in R. rewrite map_map in R. exact R.
Qed.
Lemma rep_map ps xs (H : E2) : Forall2 (fun p a => rep2g p (zmul a H)) ps xs -> Forall2 rep2g ps (map (fun a => zmul a H) xs).
Proof. induction 1; cbn [map]; constructor; assumption. Qed.
Theorem C84_one_wrong : forall pa sa wa pk s w pb sb wb m, Forall coords1 pa -> Forall coords2 sa -> coords1 pk -> coords2 s -> Forall coords1 pb -> Forall coords2 sb ->
  Forall key (wa ++ w :: wb) -> message m -> length wa = length pa -> length wb = length pb -> Z.of_nat (length (pa ++ pk :: pb)) < 2 ^ 64 ->
  Forall2 (fun pk s => verify pk m s = Ok true) pa sa -> Forall2 (fun pk s => verify pk m s = Ok true) pb sb ->
  g1_isOnCurve pk = true -> g1_inCorrectSubgroup pk = true -> g2_isOnCurve s = true -> g2_inCorrectSubgroup s = true -> verify pk m s = Ok false ->
  exists b, verify (g1_weightedSum (pa ++ pk :: pb) (wa ++ w :: wb)) m (g2_weightedSum (sa ++ s :: sb) (wa ++ w :: wb)) = Ok b /\ (b = true <-> val w mod order = 0).
Proof.
  intros pa sa wa pk s w pb sb wb m Ca Da Cp Ds Cb Db Hw Hm La Lb L Va Vb O1 I1 O2 I2 Vs. destruct (msg_hash m Hm) as (H & HH & OH).
  destruct (accepted_list m H pa sa Hm HH Ca Da Va) as (xa & A1 & A2). destruct (accepted_list m H pb sb Hm HH Cb Db Vb) as (xb & B1 & B2).
  destruct (rep1g_ex pk (proj1 Cp) (proj1 (proj2 Cp)) (proj2 (proj2 Cp)) O1) as (P & HP). apply (g1_inCorrectSubgroup_ok _ _ HP) in I1. destruct (sub1_cyclic P I1) as (a & ->).
  destruct (rep2g_ex s (proj1 Ds) (proj1 (proj2 Ds)) (proj2 (proj2 Ds)) O2) as (S & HS). apply (g2_inCorrectSubgroup_ok _ _ HS) in I2.
  assert (N : gop S (ginv (zmul a H)) <> gid).
  { intros E. apply g_sub0 in E. subst S. rewrite (verify_intro pk m s H a Hm HH HP HS) in Vs. discriminate Vs. }
  assert (ON : zmul order (gop S (ginv (zmul a H))) = gid).
  { rewrite zmul_op, zmul_inv, I2, <- zmul_mul, Z.mul_comm, zmul_mul, OH, zmul_id, g_inv_0. apply g_id. }
  pose proof (Forall2_length _ _ _ A1) as La1. pose proof (Forall2_length _ _ _ A2) as La2. pose proof (Forall2_length _ _ _ B1) as Lb1. pose proof (Forall2_length _ _ _ B2) as Lb2.
  assert (R1 : rep1g (g1_weightedSum (pa ++ pk :: pb) (wa ++ w :: wb)) (zmul (wsum (map val (wa ++ w :: wb)) (xa ++ a :: xb)) G1gen)).
  { apply weighted1; [|exact Hw|exact L]. apply Forall2_app; [exact A1|]. constructor; [exact HP|exact B1]. }
  assert (R2 : rep2g (g2_weightedSum (sa ++ s :: sb) (wa ++ w :: wb)) (wpts (map val (wa ++ w :: wb)) (map (fun a => zmul a H) xa ++ S :: map (fun a => zmul a H) xb))).
  { apply weighted_pts; [|exact Hw|]; [apply Forall2_app; [apply rep_map, A2|]; constructor; [exact HS|apply rep_map, B2]|].
    rewrite app_length in L |- *. cbn [length] in L |- *. clear -L La1 La2 Lb1 Lb2. lia. }
  set (c := wsum (map val (wa ++ w :: wb)) (xa ++ a :: xb)) in *.
  assert (ES : wpts (map val (wa ++ w :: wb)) (map (fun a => zmul a H) xa ++ S :: map (fun a => zmul a H) xb) = gop (zmul c H) (zmul (val w) (gop S (ginv (zmul a H))))).
  { assert (Lm : forall X : list E2, length X = length xa -> length (map val wa) = length X) by (intros X ->; rewrite map_length, La; exact La1).
    unfold c. rewrite <- wpts_mul, !map_app. cbn [map]. rewrite !wpts_app by (apply Lm; rewrite map_length; reflexivity).
    change (wpts (val w :: map val wb) (S :: map (fun a => zmul a H) xb)) with (gop (zmul (val w) S) (wpts (map val wb) (map (fun a => zmul a H) xb))).
    change (wpts (val w :: map val wb) (zmul a H :: map (fun a => zmul a H) xb)) with (gop (zmul (val w) (zmul a H)) (wpts (map val wb) (map (fun a => zmul a H) xb))).
    rewrite zmul_op, zmul_inv, !g_assoc. f_equal.
    rewrite (g_swap (zmul (val w) (zmul a H)) (wpts (map val wb) _)), (g_swap (zmul (val w) (zmul a H)) (zmul (val w) S)), g_inv, g_id_r. apply g_comm. }
  rewrite ES in R2. destruct (verify_iff _ m _ H (rep1g_coords _ _ R1) (rep2g_coords _ _ R2) Hm HH) as (b & E & Hb). exists b. split; [exact E|]. rewrite Hb.
  assert (OP : order <> 0) by (vm_compute; discriminate). rewrite (Z.mod_divide (val w) order OP). split.
  - intros (a' & H1 & H2). destruct (G1_dlog _ _ (rep1g_fun _ _ _ H1 R1)) as [q Eq]. pose proof (rep2g_fun _ _ _ R2 H2) as E2.
    apply (zmul_prime order _ _ order_prime ON N). apply (g_cancel (zmul c H)). rewrite E2, g_id_r.
    replace a' with (c + q * order) by (clear -Eq; lia). rewrite zmul_add, zmul_mul, OH, zmul_id. apply g_id_r.
  - intros D. exists c. split; [exact R1|]. rewrite (zmul_order_dvd _ _ ON D), g_id_r in R2. exact R2.
Qed.

(** * Shamir's scheme *)
Lemma weight_keys zs : exists ws, length ws = length zs /\ Forall key ws /\ Forall2 (cg order) (map val ws) zs.
Proof.
  exists (map (fun z => limbs_of 4 (z mod order)) zs). split; [apply map_length|]. induction zs as [|z zs [IH1 IH2]]; [split; constructor|]. cbn [map]. split; constructor; try assumption.
  - split; [apply limbs_of_words|apply limbs_of_length].
  - pose proof (Z.mod_pos_bound z order (proj2 (proj2 order_small))) as B. rewrite limbs_of_small.
    + apply (cg_mod order order_prime). apply Z.mod_mod. vm_compute. discriminate.
    + split; [apply B|]. eapply Z.lt_trans; [apply B|]. exact (proj1 order_small).
Qed.
Lemma cg_list vs vs' : Forall2 (fun v v' => v mod order = v' mod order) vs vs' -> Forall2 (cg order) vs vs'.
Proof. induction 1; constructor; [apply (cg_mod order order_prime); assumption|assumption]. Qed.
(** For any distinct indices there are weights, depending on the indices only, such that for every polynomial of degree less than their number:
    the shares (its values at the indices) combine to the public key and to the signature of its value at 0. *)
Theorem C84_threshold : forall xs, xs <> [] -> distinct_mod order xs -> Z.of_nat (length xs) < 2 ^ 64 ->
  exists ws, length ws = length xs /\ Forall key ws /\
  forall cs ks k, (length cs <= length xs)%nat -> Forall key ks -> Forall2 (fun k x => val k mod order = poly cs x mod order) ks xs -> key k -> val k mod order = poly cs 0 mod order ->
    g1_equal (g1_weightedSum (map public_key ks) ws) (public_key k) = true /\
    forall m sigs, message m -> Forall2 (fun k s => sign k m = Ok s) ks sigs ->
      verify (public_key k) m (g2_weightedSum sigs ws) = Ok true /\ exists s, sign k m = Ok s /\ g2_equal (g2_weightedSum sigs ws) s = true.
Proof.
  intros xs N D L. destruct (interpolate order order_prime xs N D) as (zs & Lz & Hz). destruct (weight_keys zs) as (ws & Lw & Hw & Cw).
  exists ws. split; [congruence|]. split; [exact Hw|]. intros cs ks k Lc Hk Hs Kk Ek.
  assert (C : wsum (map val ws) (map val ks) mod order = val k mod order).
  { rewrite Ek. apply (cg_mod order order_prime). apply cg_trans with (wsum zs (map (poly cs) xs)).
    - apply wsum_cg; [exact Cw|]. apply cg_list. clear -Hs. induction Hs; cbn [map]; constructor; assumption.
    - eapply cg_trans; [exact (Hz cs Lc)|]. apply cg_eq. destruct cs; cbn [hd poly]; [reflexivity|]. ring. }
  assert (Lk : Z.of_nat (length ks) < 2 ^ 64) by (rewrite (Forall2_length _ _ _ Hs); exact L).
  split; [apply (C84_keys ks ws k Hk Hw Kk Lk); exact C|]. intros m sigs Hm Hsig. destruct (msg_hash m Hm) as (H & HH & _).
  destruct (C84_signatures ks ws k m sigs H Hk Hw Kk Hm Lk HH Hsig) as ((b & Eb & Hb) & s & Es & Hq). split.
  - rewrite Eb. apply (f_equal Ok), Hb. left. exact C.
  - exists s. split; [exact Es|]. apply Hq. left. exact C.
Qed.
(** With as many coefficients as indices plus one no weights do: for every list of indices other than 0 there is a polynomial with value 1 at 0
    all of whose shares are 0, so that whatever weights are used the combined signature is rejected. *)
Theorem C84_too_few : forall xs, Forall (fun x => x mod order <> 0) xs -> Z.of_nat (length xs) < 2 ^ 64 ->
  exists cs, length cs = S (length xs) /\ poly cs 0 mod order = 1 /\
  forall ks k ws, Forall key ks -> Forall2 (fun k x => val k mod order = poly cs x mod order) ks xs -> key k -> val k mod order = poly cs 0 mod order -> Forall key ws ->
    g1_equal (g1_weightedSum (map public_key ks) ws) (public_key k) = false /\
    forall m sigs (H : E2), message m -> hash_to_curve m DST_SIG H -> H <> gid -> Forall2 (fun k s => sign k m = Ok s) ks sigs ->
      verify (public_key k) m (g2_weightedSum sigs ws) = Ok false.
Proof.
  intros xs N L. assert (OP : order <> 0) by (vm_compute; discriminate).
  destruct (vanish order order_prime xs) as (cs & Lc & Hh & Hv).
  { eapply Forall_impl; [|exact N]. cbv beta. intros x Hx D. apply Hx. apply Z.mod_divide; assumption. }
  exists cs. split; [exact Lc|]. assert (P0 : poly cs 0 mod order = 1) by (destruct cs as [|c cs]; [discriminate Lc|]; cbn [hd] in Hh; cbn [poly]; rewrite Hh, Z.mul_0_l; vm_compute; reflexivity).
  split; [exact P0|]. intros ks k ws Hk Hs Kk Ek Hw. rewrite P0 in Ek.
  assert (Z0 : Forall (fun v => cg order v 0) (map val ks)).
  { clear -Hs Hv. induction Hs as [|k x ks xs E _ IH]; cbn [map]; [constructor|]. inversion_clear Hv as [|? ? V1 V2]. constructor; [|exact (IH V2)].
    eapply cg_trans; [|exact V1]. apply (cg_mod order order_prime). exact E. }
  assert (C : wsum (map val ws) (map val ks) mod order <> val k mod order).
  { rewrite Ek. assert (X : cg order (wsum (map val ws) (map val ks)) 0).
    { clear -Z0. revert Z0. generalize (map val ks) as vs. induction (map val ws) as [|w us IH]; intros vs Z0; [apply cg_refl|]. destruct Z0 as [|v vs V1 V2]; [apply cg_refl|].
      cbn [wsum]. apply cg_trans with (w * 0 + 0); [|apply cg_eq; ring]. apply cg_add; [apply cg_mul, V1|exact (IH _ V2)]. }
    apply (cg_mod order order_prime) in X. rewrite X, Z.mod_0_l by exact OP. discriminate. }
  assert (Lk : Z.of_nat (length ks) < 2 ^ 64) by (rewrite (Forall2_length _ _ _ Hs); exact L).
  split; [apply not_true_is_false; intros T; apply C, (C84_keys ks ws k Hk Hw Kk Lk), T|]. intros m sigs H Hm HH NH Hsig.
  destruct (C84_signatures ks ws k m sigs H Hk Hw Kk Hm Lk HH Hsig) as ((b & Eb & Hb) & _). rewrite Eb. f_equal. apply not_true_is_false. intros T. apply Hb in T. destruct T as [T|T]; contradiction.
Qed.
(** Nor do they say anything about the key: whatever the shares at the given indices and whatever the key are, there is exactly one polynomial
    (coefficients modulo the group order) with one more coefficient than indices that has these shares and this key. *)
Theorem C84_hidden : forall xs ks k, Forall (fun x => x mod order <> 0) xs -> distinct_mod order xs -> length ks = length xs ->
  exists cs, (length cs = S (length xs) /\ poly cs 0 mod order = val k mod order /\ Forall2 (fun k x => val k mod order = poly cs x mod order) ks xs) /\
  forall ds, length ds = S (length xs) -> poly ds 0 mod order = val k mod order -> Forall2 (fun k x => val k mod order = poly ds x mod order) ks xs ->
    Forall2 (fun c d => c mod order = d mod order) cs ds.
Proof.
  intros xs ks k N D L. assert (D0 : distinct_mod order (0 :: xs)).
  { split; [|exact D]. eapply Forall_impl; [|exact N]. cbv beta. intros x Hx E. apply Hx. rewrite <- E. reflexivity. }
  destruct (through order order_prime (0 :: xs) (val k :: map val ks) D0) as (cs & Lc & Hc).
  { cbn [length]. rewrite map_length, L. reflexivity. }
  inversion_clear Hc as [|? ? ? ? H0 Hs].
  assert (Hs' : Forall2 (fun k x => val k mod order = poly cs x mod order) ks xs).
  { clear -Hs. revert ks Hs. induction xs as [|x xs IH]; intros [|k ks] Hs; cbn [map] in Hs; inversion_clear Hs as [|? ? ? ? H1 H2]; constructor; [|exact (IH _ H2)].
    symmetry. apply (cg_mod order order_prime), H1. }
  apply (cg_mod order order_prime) in H0.
  exists cs. split; [split; [exact Lc|split; [exact H0|exact Hs']]|]. intros ds Ld Hd0 Hds.
  assert (U : Forall2 (cg order) cs ds).
  { apply (unique order order_prime (0 :: xs)); [exact D0|rewrite Lc, Ld; reflexivity|rewrite Lc; reflexivity|]. constructor; [apply (cg_mod order order_prime); congruence|].
    clear -Hs' Hds. revert Hds. induction Hs' as [|k x ks xs E _ IH]; intros Hds; [constructor|]. inversion_clear Hds as [|? ? ? ? E1 E2]. constructor; [|exact (IH E2)].
    apply (cg_mod order order_prime). congruence. }
  clear -U. induction U as [|c d cs ds E _ IH]; constructor; [apply (cg_mod order order_prime), E|exact IH].
Qed.
(** a key shared among three by 7 + 5 x at 1, 2, 3; the first and the third sign: weights 3/2 and -1/2 *)
Example C84_nontrivial : let half := (order + 1) / 2 in let ws := [limbs_of 4 (3 * half mod order); limbs_of 4 (- half mod order)] in
  let ks := [[12; 0; 0; 0]; [22; 0; 0; 0]] in
  Forall key ws /\ Forall key ks /\ distinct_mod order [1; 3] /\ Forall2 (fun k x => val k mod order = poly [7; 5] x mod order) ks [1; 3] /\
  wsum (map val ws) (map val ks) mod order = val [7; 0; 0; 0] mod order /\
  g1_equal (g1_weightedSum (map public_key ks) ws) (public_key [7; 0; 0; 0]) = true.
Proof.
  cbv zeta. assert (A : Forall key [limbs_of 4 (3 * ((order + 1) / 2) mod order); limbs_of 4 (- ((order + 1) / 2) mod order)]) by (constructor; [|constructor; [|constructor]]; (split; [apply limbs_of_words|apply limbs_of_length])).
  assert (B : Forall key [[12; 0; 0; 0]; [22; 0; 0; 0]]) by (constructor; [|constructor; [|constructor]]; (split; [wrd|reflexivity])).
  assert (C : wsum (map val [limbs_of 4 (3 * ((order + 1) / 2) mod order); limbs_of 4 (- ((order + 1) / 2) mod order)]) (map val [[12; 0; 0; 0]; [22; 0; 0; 0]]) mod order = val [7; 0; 0; 0] mod order) by (vm_compute; reflexivity).
  split; [exact A|]. split; [exact B|]. split; [split; [constructor; [vm_compute; discriminate|constructor]|split; [constructor|exact I]]|].
  split; [constructor; [vm_compute; reflexivity|constructor; [vm_compute; reflexivity|constructor]]|]. split; [exact C|].
  apply (C84_keys [[12; 0; 0; 0]; [22; 0; 0; 0]] _ [7; 0; 0; 0] B A); [|reflexivity|exact C]. split; [wrd|reflexivity].
Qed.

(** the two shares sign the message [1; 2; 3] and combine to the signature under the key 7 *)
Example C84_signed : let half := (order + 1) / 2 in let ws := [limbs_of 4 (3 * half mod order); limbs_of 4 (- half mod order)] in let m := [1; 2; 3] in
  exists s1 s2 s, sign [12; 0; 0; 0] m = Ok s1 /\ sign [22; 0; 0; 0] m = Ok s2 /\ sign [7; 0; 0; 0] m = Ok s /\ g2_equal (g2_weightedSum [s1; s2] ws) s = true /\
  verify (public_key [7; 0; 0; 0]) m (g2_weightedSum [s1; s2] ws) = Ok true.
Proof.
  cbv zeta. destruct C84_nontrivial as (A & B & _ & _ & C & _). assert (Hm : message [1; 2; 3]) by (split; [repeat (constructor; [split; [discriminate|reflexivity]|]); constructor|reflexivity]).
  destruct (msg_hash _ Hm) as (H & HH & _). inversion_clear B as [|? ? B1 B2]. inversion_clear B2 as [|? ? B3 _]. assert (K7 : key [7; 0; 0; 0]) by (split; [wrd|reflexivity]).
  destruct (sign_ok _ _ (proj1 B1) Hm) as (s1 & _ & E1 & _). destruct (sign_ok _ _ (proj1 B3) Hm) as (s2 & _ & E2 & _).
  assert (F : Forall2 (fun k s => sign k [1; 2; 3] = Ok s) [[12; 0; 0; 0]; [22; 0; 0; 0]] [s1; s2]) by (constructor; [exact E1|constructor; [exact E2|constructor]]).
  assert (L : Z.of_nat (length [[12; 0; 0; 0]; [22; 0; 0; 0]]) < 2 ^ 64) by reflexivity.
  destruct (C84_signatures _ _ [7; 0; 0; 0] _ _ H (Forall_cons _ B1 (Forall_cons _ B3 (Forall_nil _))) A K7 Hm L HH F) as ((b & Eb & Hb) & s & Es & Hq).
  exists s1, s2, s. split; [exact E1|]. split; [exact E2|]. split; [exact Es|]. split; [apply Hq; left; exact C|]. rewrite Eb. apply (f_equal Ok), Hb. left. exact C.
Qed.
(** the share 12 at the index 1 alone fits the key 7 (with 7 + 5 x) and the key 9 (with 9 + 3 x) *)
Example C84_hidden_nontrivial : Forall (fun x => x mod order <> 0) [1] /\ distinct_mod order [1] /\
  (poly [7; 5] 0 = 7 /\ poly [7; 5] 1 = 12) /\ (poly [9; 3] 0 = 9 /\ poly [9; 3] 1 = 12).
Proof. split; [constructor; [vm_compute; discriminate|constructor]|]. split; [split; [constructor|exact I]|]. repeat split. Qed.
Definition props_threshold := (C84_keys, C84_signatures, C84_accepted, C84_one_wrong, C84_threshold, C84_too_few, C84_hidden).
Print Assumptions props_threshold.
