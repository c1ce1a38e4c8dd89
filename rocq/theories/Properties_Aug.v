(** C82: the augmented scheme of test/unittests.cpp:1963-1990, in which every signer appends its own public key to the message.
    Notation as in Properties_Sig: rep1g p P, rep2g q Q: the g1 (g2) value denotes the curve point; coords1, coords2: coordinates below p;
    key k: four 64-bit words; message m: fewer than 2^31 bytes. *)
From Coq Require Import ZArith Znumtheory List ListDec Bool Lia.
From Verif Require Import SpecField SpecBytes SpecHash SpecCodec SpecKeys SpecCurve SpecMap SpecSig SpecPairing.
From Verif Require Import ModelWord ModelScalar ModelFp ModelTower ModelCurve ModelCodec ModelKdf ModelKeys ModelPairing ModelSig.
From Verif Require Import ScalarProof BytesProof KeysProof FieldProof FpProof TowerRefine.
From Verif Require Import AbGroup CurveProof CurveInst CurveReps CurveBase GenProof Orders SigProof ModelDiv WireProof Properties_Codec Properties_Sig Properties_Scheme.
Import ListNotations.
Local Open Scope Z_scope.

(** test/unittests.cpp:1976-1983: the message followed by the 96 bytes of toAffineBytesBE *)
Definition aug (m : list Z) (pk : g1) : list Z := m ++ g1_toAffineBE pk true.
(** room for the 96 bytes *)
Definition short (m : list Z) : Prop := bytes m /\ Z.of_nat (length m) < 2 ^ 31 - 96.

Lemma aug_message m pk (P : E1) : short m -> rep1g pk P -> message (aug m pk).
Proof.
  intros [B L] H. destruct C34_g1_affine_BE as (A & _). destruct (A pk P true true H) as (Bk & Lk & _). split; [apply Forall_app; split; assumption|].
  unfold aug. rewrite app_length, Lk. lia.
Qed.
(** the message and the key (as a point) can be read off *)
Theorem C82_injective : forall m m' p q (P Q : E1), rep1g p P -> rep1g q Q -> aug m p = aug m' q <-> m = m' /\ P = Q.
Proof.
  intros m m' p q P Q HP HQ. destruct C34_g1_affine_BE as (A & _). destruct (A p P false true HP) as (_ & L1 & x & Ex & Rx). destruct (A q Q false true HQ) as (_ & L2 & y & Ey & Ry). split.
  - unfold aug. intros E. assert (L : length m = length m') by (apply (f_equal (@length Z)) in E; rewrite !app_length, L1, L2 in E; lia).
    assert (E1 : m = m') by (apply (f_equal (firstn (length m))) in E; rewrite firstn_app, firstn_all, Nat.sub_diag, app_nil_r in E; rewrite L, firstn_app, firstn_all, Nat.sub_diag, app_nil_r in E; exact E).
    split; [exact E1|]. subst m'. apply app_inv_head in E. rewrite E, Ey in Ex. injection Ex as <-. exact (rep1g_fun _ _ _ Rx Ry).
  - intros [-> ->]. unfold aug. f_equal. exact (toA1 48 _ p q Q true HP HQ).
Qed.
Lemma NoDup_same {A B C} (f : A -> B) (g : A -> C) l : (forall x y, In x l -> In y l -> f x = f y <-> g x = g y) -> NoDup (map f l) <-> NoDup (map g l).
Proof.
  induction l as [|x l IH]; intros H; [split; constructor|]. cbn [map]. rewrite !NoDup_cons_iff, IH by (intros; apply H; right; assumption).
  assert (X : In (f x) (map f l) <-> In (g x) (map g l)); [|rewrite X; reflexivity].
  rewrite !in_map_iff. split; intros (y & E & I); exists y; (split; [|exact I]); apply (H y x (or_intror I) (or_introl eq_refl)); exact E.
Qed.
(** honest signers: the aggregate passes, with the check for duplicates, exactly if no signer signs the same message twice; signers are told
    apart by their keys modulo the group order *)
Theorem C82_honest : forall kms sigs, Forall (fun km => key (fst km) /\ short (snd km)) kms ->
  Forall2 (fun km s => sign (fst km) (aug (snd km) (public_key (fst km))) = Ok s) kms sigs ->
  (aggregate_verify (map (fun km => public_key (fst km)) kms) (map (fun km => aug (snd km) (public_key (fst km))) kms) (aggregate_signatures sigs) true = Ok true <->
   NoDup (map (fun km => (val (fst km) mod order, snd km)) kms)) /\
  aggregate_verify (map (fun km => public_key (fst km)) kms) (map (fun km => aug (snd km) (public_key (fst km))) kms) (aggregate_signatures sigs) false = Ok true.
Proof.
  intros kms sigs Hk Hs. set (f := fun km => (fst km, aug (snd km) (public_key (fst km)))).
  assert (E1 : map (fun km : list Z * list Z => public_key (fst km)) kms = map (fun km => public_key (fst km)) (map f kms)) by (rewrite map_map; reflexivity).
  assert (E2 : map (fun km : list Z * list Z => aug (snd km) (public_key (fst km))) kms = map snd (map f kms)) by (rewrite map_map; reflexivity).
  assert (K : Forall (fun km => key (fst km) /\ message (snd km)) (map f kms)).
  { clear -Hk. induction Hk as [|[sk m] kms [K M] _ IH]; [constructor|]. cbn [map]. constructor; [|exact IH]. split; [exact K|exact (aug_message _ _ _ M (public_key_ok sk (proj1 K)))]. }
  assert (S : Forall2 (fun km s => sign (fst km) (snd km) = Ok s) (map f kms) sigs).
  { clear -Hs. induction Hs as [|km s kms sigs H _ IH]; [constructor|]. cbn [map]. constructor; [exact H|exact IH]. }
  assert (N : NoDup (map snd (map f kms)) <-> NoDup (map (fun km => (val (fst km) mod order, snd km)) kms)).
  { rewrite map_map. apply NoDup_same. intros [sk m] [sk' m'] I I'. apply (proj1 (Forall_forall _ _) Hk) in I. apply (proj1 (Forall_forall _ _) Hk) in I'. destruct I as [[W _] _]. destruct I' as [[W' _] _].
    cbn [fst snd f]. rewrite (C82_injective m m' _ _ _ _ (public_key_ok sk W) (public_key_ok sk' W')), (zmul_eq_mod _ _ _ G1gen_r G1gen_nz). split; [intros [-> ->]; reflexivity|intros E; injection E; auto]. }
  rewrite E1, E2, <- N. clear E1 E2 N. split; [split|].
  - intros V. destruct (ListDec.NoDup_dec (list_eq_dec Z.eq_dec) (map snd (map f kms))) as [D|D]; [exact D|]. rewrite (C50_rejects_duplicates _ _ _ D) in V. discriminate V.
  - intros D. apply C50_honest; [exact K|exact S|]. intros _. exact D.
  - apply C50_honest; [exact K|exact S|]. discriminate.
Qed.
(** the same for signing without augmentation: a rogue key.  From a key and k alone: another key and a signature that passes for both keys and one message *)
Theorem C82_plain_refuted : forall pk a m k, rep1g pk (zmul a G1gen) -> message m -> key k ->
  exists s, sign k m = Ok s /\ aggregate_verify [pk; g1_sub (public_key k) pk] [m; m] s false = Ok true.
Proof.
  intros pk a m k HP Hm [W _]. destruct (sign_ok k m W Hm) as (s & H & E & HH & HR & _). exists s. split; [exact E|].
  pose proof (rep1g_sub _ _ _ _ (public_key_ok k W) HP) as HQ. rewrite <- zmul_sub in HQ.
  apply (agg_intro _ _ _ _ [(a, H); (val k - a, H)]).
  - constructor; [exact Hm|constructor; [exact Hm|constructor]].
  - exact (nochk _).
  - constructor; [exact HP|constructor; [exact HQ|constructor]].
  - constructor; [exact HH|constructor; [exact HH|constructor]].
  - rewrite !lsum_cons. change (lsum []) with (gid : E2). rewrite g_id_r, <- zmul_add. replace (a + (val k - a)) with (val k) by lia. exact HR.
Qed.
(** with augmentation the same rogue key is useless: a signature that passes for both is k H' plus the signature of the honest key on the
    difference of the two hashes, so subtracting k H' leaves a (H - H') *)
Theorem C82_rogue : forall pk a m k s (H H' : E2), rep1g pk (zmul a G1gen) -> short m -> key k -> coords2 s ->
  let pk' := g1_sub (public_key k) pk in
  hash_to_curve (aug m pk) DST_SIG H -> hash_to_curve (aug m pk') DST_SIG H' ->
  (forall chk, (chk = true -> ~ rep1g pk' (zmul a G1gen)) ->
   (aggregate_verify [pk; pk'] [aug m pk; aug m pk'] s chk = Ok true <-> rep2g s (gop (zmul (val k) H') (zmul a (gop H (ginv H')))))) /\
  exists h', fromMessage (aug m pk') DST_SIG = Ok h' /\
    (aggregate_verify [pk; pk'] [aug m pk; aug m pk'] s false = Ok true -> rep2g (g2_sub s (g2_scale h' k)) (zmul a (gop H (ginv H')))).
Proof.
  intros pk a m k s H H' HP Hm [W _] Cs pk' HH HH'. pose proof (rep1g_sub _ _ _ _ (public_key_ok k W) HP) as HQ. fold pk' in HQ. rewrite <- zmul_sub in HQ.
  pose proof (aug_message m pk _ Hm HP) as M1. pose proof (aug_message m pk' _ Hm HQ) as M2.
  assert (S : gop (zmul a H) (zmul (val k - a) H') = gop (zmul (val k) H') (zmul a (gop H (ginv H')))).
  { rewrite zmul_sub, zmul_op, zmul_inv, g_swap. reflexivity. }
  assert (X : forall chk, (chk = true -> ~ rep1g pk' (zmul a G1gen)) ->
   (aggregate_verify [pk; pk'] [aug m pk; aug m pk'] s chk = Ok true <-> rep2g s (gop (zmul (val k) H') (zmul a (gop H (ginv H')))))).
  { intros chk D. assert (ML : Forall message [aug m pk; aug m pk']) by (constructor; [exact M1|constructor; [exact M2|constructor]]). rewrite <- S. split.
    - intros V. assert (CL : Forall coords1 [pk; pk']) by (constructor; [exact (rep1g_coords _ _ HP)|constructor; [exact (rep1g_coords _ _ HQ)|constructor]]).
      destruct (agg_elim _ _ _ _ CL ML Cs V) as (_ & _ & T & K & Hs & R). inversion K as [|? [b B] ? T1 K1 K2]; subst. inversion K2 as [|? [b' B'] ? T2 K3 K4]; subst. inversion K4; subst.
      inversion Hs as [|? ? ? ? Hs1 Hs2]; subst. inversion Hs2 as [|? ? ? ? Hs3 _]; subst. cbn [fst snd] in *. pose proof (hash_fun _ _ _ _ HH Hs1) as <-. pose proof (hash_fun _ _ _ _ HH' Hs3) as <-.
      rewrite !lsum_cons in R. change (lsum []) with (gid : E2) in R. rewrite g_id_r in R.
      rewrite (dlog_eq b a H (hash_order _ _ _ HH) (rep1g_fun _ _ _ K1 HP)), (dlog_eq b' (val k - a) H' (hash_order _ _ _ HH') (rep1g_fun _ _ _ K3 HQ)) in R. exact R.
    - intros R. apply (agg_intro _ _ _ _ [(a, H); (val k - a, H')] ML).
      + intros C. constructor; [|constructor; [intros []|constructor]]. intros [E|[]]. symmetry in E. apply (C82_injective m m _ _ _ _ HP HQ) in E. destruct E as [_ E]. apply (D C). rewrite E. exact HQ.
      + constructor; [exact HP|constructor; [exact HQ|constructor]].
      + constructor; [exact HH|constructor; [exact HH'|constructor]].
      + rewrite !lsum_cons. change (lsum []) with (gid : E2). rewrite g_id_r. exact R. }
  split; [exact X|]. destruct (C47_fromMessage (aug m pk') DST_SIG M2 DST_SIG_bytes) as (h' & H2 & E & HH2 & R2 & _). { rewrite DST_SIG_len. lia. }
  pose proof (hash_fun _ _ _ _ HH' HH2) as <-. exists h'. split; [exact E|]. intros V. apply (X false) in V; [|discriminate].
  pose proof (rep2g_sub _ _ _ _ V (rep2g_scale _ _ k R2 W)) as R. rewrite (g_comm _ (zmul (val k) H')), g_assoc, g_inv, g_id_r in R. exact R.
Qed.
(** two keys and one message, as in the test *)
Example C82_nontrivial : let kms := [([7; 0; 0; 0], [100; 2; 254]); ([9; 1; 0; 0], [100; 2; 254])] in
  Forall (fun km => key (fst km) /\ short (snd km)) kms /\ NoDup (map (fun km => (val (fst km) mod order, snd km)) kms) /\ ~ NoDup (map snd kms) /\
  (exists sigs, Forall2 (fun km s => sign (fst km) (aug (snd km) (public_key (fst km))) = Ok s) kms sigs) /\
  rep1g (public_key [7; 0; 0; 0]) (zmul 7 G1gen) /\ ~ rep1g (g1_sub (public_key [9; 1; 0; 0]) (public_key [7; 0; 0; 0])) (zmul 7 G1gen).
Proof.
  intros kms. assert (K7 : key [7; 0; 0; 0]) by (split; [apply wordsb_ok; reflexivity|reflexivity]). assert (K9 : key [9; 1; 0; 0]) by (split; [apply wordsb_ok; reflexivity|reflexivity]).
  assert (M : short [100; 2; 254]) by (split; [repeat constructor; discriminate|reflexivity]).
  assert (F : Forall (fun km => key (fst km) /\ short (snd km)) kms) by (unfold kms; constructor; [exact (conj K7 M)|constructor; [exact (conj K9 M)|constructor]]).
  split; [exact F|]. split; [constructor; [intros [E|[]]; injection E; discriminate|constructor; [intros []|constructor]]|].
  split; [intros D; inversion D as [|? ? N _]; subst; apply N; left; reflexivity|]. split.
  - clearbody kms. induction F as [|[sk m] kms [K S] _ (sigs & IH)]; [exists []; constructor|].
    destruct (C47_sign sk _ K (aug_message m _ _ S (public_key_ok sk (proj1 K)))) as (s & _ & E & _). exists (s :: sigs). constructor; [exact E|exact IH].
  - pose proof (public_key_ok _ (proj1 K7)) as R7. pose proof (rep1g_sub _ _ _ _ (public_key_ok _ (proj1 K9)) R7) as R. split; [exact R7|]. intros Z.
    pose proof (rep1g_fun _ _ _ R Z) as E. rewrite <- zmul_sub in E. apply (zmul_eq_mod _ _ _ G1gen_r G1gen_nz) in E. vm_compute in E. discriminate E.
Qed.

Definition props_aug := (C82_injective, C82_honest, C82_plain_refuted, C82_rogue).
Print Assumptions props_aug.
