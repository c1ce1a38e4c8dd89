(** C73: proofs of possession and aggregates as byte strings.  stands1, stands2 as in SpecWire.  Each predicate below: the strings decode
    (compressed form) and the decoded values pass the verification function. *)
From Coq Require Import String ZArith Znumtheory List Bool Lia.
From Verif Require Import SpecField SpecBytes SpecCurve SpecMap SpecSig SpecWire.
From Verif Require Import ModelWord ModelScalar ModelFp ModelTower ModelCurve ModelCodec ModelKeys ModelSig.
From Verif Require Import ScalarProof BytesProof KeysProof FieldProof AbGroup CurveProof CurveInst CurveReps CurveBase GenProof Orders Cofactor SigProof.
From Verif Require Import CodecProof2 HashVec HashVec2 WireProof WireProof2 Properties_Codec Properties_Sig Properties_Wire.
Import ListNotations. Notation length := List.length.
Local Open Scope Z_scope.

Definition key_string (b : list Z) : Prop := bytes b /\ length b = 48%nat.
Definition sig_string (s : list Z) : Prop := bytes s /\ length s = 96%nat.
Definition decode1 (b : list Z) (q : g1) : Prop := g1_fromCompressed b = Some q.
Definition wire_pop (pkb prf : list Z) : Prop :=
  exists pk s, decode1 pkb pk /\ g2_fromCompressed prf = Some s /\ pop_verify pk s = Ok true.
Definition wire_aggregate (pkbs ms : list (list Z)) (sb : list Z) (chk : bool) : Prop :=
  exists pks s, Forall2 decode1 pkbs pks /\ g2_fromCompressed sb = Some s /\ aggregate_verify pks ms s chk = Ok true.
Definition wire_fast (pkbs : list (list Z)) (m sb : list Z) : Prop :=
  exists pks s, Forall2 decode1 pkbs pks /\ g2_fromCompressed sb = Some s /\ pop_fast_aggregate_verify pks m s = Ok true.

Lemma f2_len {A B} (R : A -> B -> Prop) l l' : Forall2 R l l' -> length l = length l'.
Proof. induction 1; cbn [List.length]; congruence. Qed.
Lemma dec_list pkbs pks : Forall key_string pkbs -> Forall2 decode1 pkbs pks -> exists Ps : list E1, Forall2 rep1g pks Ps /\ Forall2 stands1 pkbs Ps.
Proof.
  intros F D. revert F. induction D as [|b q pkbs pks E D IH]; intros F; [exists []; split; constructor|].
  inversion F as [|? ? [B L] F']; subst. destruct (IH F') as (Ps & I1 & I2). destruct (dec1_rep b q B L E) as [P R].
  exists (P :: Ps). split; constructor; auto. apply (dec1_iff _ _ B L). exists q. auto.
Qed.
Lemma list_dec pkbs (Ps : list E1) : Forall2 stands1 pkbs Ps -> exists pks, Forall2 decode1 pkbs pks /\ Forall2 rep1g pks Ps.
Proof.
  induction 1 as [|b P pkbs Ps S F IH]; [exists []; split; constructor|]. destruct IH as (pks & I1 & I2).
  pose proof S as (B & L & _). apply (dec1_iff _ _ B L) in S. destruct S as (q & E & R). exists (q :: pks). split; constructor; auto.
Qed.
Lemma reps_coords pks (Ps : list E1) : Forall2 rep1g pks Ps -> Forall coords1 pks.
Proof. induction 1 as [|q P pks Ps R F IH]; constructor; [exact (rep1g_coords _ _ R)|exact IH]. Qed.
(** ** exactly what is accepted *)
Theorem C73_pop_accepts : forall pkb prf, key_string pkb -> sig_string prf ->
  (wire_pop pkb prf <-> exists a (H : E2), stands1 pkb (zmul a G1gen) /\ hash_to_curve (pop_message (cpt (b := b1) (zmul a G1gen))) DST_POP H /\ stands2 prf (zmul a H)).
Proof.
  intros pkb prf [Bp Lp] [Bs Ls]. split.
  - intros (pk & s & Ep & Es & V). destruct (dec1_rep pkb pk Bp Lp Ep) as [P RP]. destruct (dec2_rep prf s Bs Ls Es) as [S RS].
    destruct (pop_verify_ok pk s (rep1g_coords _ _ RP) (rep2g_coords _ _ RS)) as (b & E & Hb). rewrite V in E. injection E as <-.
    destruct (proj1 Hb eq_refl) as (a & H & R1 & HH & R2). exists a, H.
    split; [apply (dec1_iff _ _ Bp Lp); exists pk; auto|]. split; [exact HH|apply (dec2_iff _ _ Bs Ls); exists s; auto].
  - intros (a & H & S1 & HH & S2). apply (dec1_iff _ _ Bp Lp) in S1. apply (dec2_iff _ _ Bs Ls) in S2. destruct S1 as (pk & Ep & R1). destruct S2 as (s & Es & R2).
    exists pk, s. split; [exact Ep|]. split; [exact Es|]. destruct (pop_verify_ok pk s (rep1g_coords _ _ R1) (rep2g_coords _ _ R2)) as (b & E & Hb).
    rewrite E. apply (f_equal Ok), Hb. exists a, H. auto.
Qed.
Theorem C73_aggregate_accepts : forall pkbs ms sb chk, Forall key_string pkbs -> Forall message ms -> sig_string sb ->
  (wire_aggregate pkbs ms sb chk <-> length pkbs = length ms /\ (chk = true -> NoDup ms) /\
     exists T : list (Z * E2), Forall2 (fun b aH => stands1 b (zmul (fst aH) G1gen)) pkbs T /\ Forall2 (fun m aH => hash_to_curve m DST_SIG (snd aH)) ms T /\
       stands2 sb (gsum (map (fun aH => zmul (fst aH) (snd aH)) T))).
Proof.
  intros pkbs ms sb chk Fk Fm [Bs Ls]. split.
  - intros (pks & s & D & Es & V). destruct (dec_list _ _ Fk D) as (Ps & RP & SP). destruct (dec2_rep sb s Bs Ls Es) as [S RS].
    destruct (aggregate_ok pks ms s chk (reps_coords _ _ RP) Fm (rep2g_coords _ _ RS)) as (b & E & Hb). rewrite V in E. injection E as <-.
    destruct (proj1 Hb eq_refl) as (L & N & T & K & HT & R). split; [rewrite (f2_len _ _ _ D); exact L|]. split; [exact N|]. exists T. split; [|split; [exact HT|]].
    + clear - Fk D K. revert T K. induction D as [|x q pkbs pks E D IH]; intros T K; inversion K as [|? aH ? T' K1 K2]; subst; [constructor|].
      inversion Fk as [|? ? [B L] F']; subst. constructor; [|exact (IH F' _ K2)]. apply (dec1_iff _ _ B L). exists q. auto.
    + apply (dec2_iff _ _ Bs Ls). exists s. auto.
  - intros (L & N & T & K & HT & S2). apply (dec2_iff _ _ Bs Ls) in S2. destruct S2 as (s & Es & R2).
    assert (X : Forall2 stands1 pkbs (map (fun aH => zmul (fst aH) G1gen) T)) by (clear - K; induction K; constructor; auto).
    destruct (list_dec _ _ X) as (pks & D & RP). exists pks, s. split; [exact D|]. split; [exact Es|].
    destruct (aggregate_ok pks ms s chk (reps_coords _ _ RP) Fm (rep2g_coords _ _ R2)) as (b & E & Hb). rewrite E. apply (f_equal Ok), Hb.
    split; [rewrite <- (f2_len _ _ _ D); exact L|]. split; [exact N|]. exists T. split; [|split; [exact HT|exact R2]].
    clear - RP. revert RP. generalize pks as l. induction T as [|aH T IH]; intros l RP; inversion RP as [|? ? ? ? R1 R']; subst; constructor; [exact R1|exact (IH _ R')].
Qed.
Theorem C73_fast_accepts : forall pkbs m sb (H : E2), pkbs <> [] -> Forall key_string pkbs -> message m -> hash_to_curve m DST_SIG H -> sig_string sb ->
  (wire_fast pkbs m sb <-> exists (Ps : list E1) a, Forall2 stands1 pkbs Ps /\ gsum Ps = zmul a G1gen /\ stands2 sb (zmul a H)).
Proof.
  intros pkbs m sb H N Fk Hm HH [Bs Ls]. split.
  - intros (pks & s & D & Es & V). destruct (dec_list _ _ Fk D) as (Ps & RP & SP). destruct (dec2_rep sb s Bs Ls Es) as [S RS].
    destruct (C51_fast_accepts pks Ps m s) as (b & H' & E & HH' & Hb); [intros ->; inversion D; subst; auto|exact RP|exact (rep2g_coords _ _ RS)|exact Hm|].
    rewrite V in E. injection E as <-. pose proof (hash_fun _ _ _ _ HH HH') as <-. destruct (proj1 Hb eq_refl) as (a & G & R). exists Ps, a. split; [exact SP|]. split; [exact G|].
    apply (dec2_iff _ _ Bs Ls). exists s. auto.
  - intros (Ps & a & SP & G & S2). apply (dec2_iff _ _ Bs Ls) in S2. destruct S2 as (s & Es & R2). destruct (list_dec _ _ SP) as (pks & D & RP).
    exists pks, s. split; [exact D|]. split; [exact Es|].
    destruct (C51_fast_accepts pks Ps m s) as (b & H' & E & HH' & Hb); [intros ->; inversion D; subst; auto|exact RP|exact (rep2g_coords _ _ R2)|exact Hm|].
    pose proof (hash_fun _ _ _ _ HH HH') as <-. rewrite E. apply (f_equal Ok), Hb. exists a. auto.
Qed.
(** ** nothing depends on which string of a point is used *)
Definition same_point (b b' : list Z) : Prop := exists P : E1, stands1 b P /\ stands1 b' P.
Lemma same_string b b' : same_point b b' -> forall P : E1, stands1 b P <-> stands1 b' P.
Proof. intros (Q & S & S') P. split; intros X; [rewrite (stands1_fun _ _ _ X S)|rewrite (stands1_fun _ _ _ X S')]; assumption. Qed.
Lemma same_keys b b' : same_point b b' -> key_string b /\ key_string b'.
Proof. intros (Q & (B & L & _) & B' & L' & _). repeat split; assumption. Qed.
Theorem C73_pop_reencode : forall pkb pkb' prf, same_point pkb pkb' -> sig_string prf -> (wire_pop pkb prf <-> wire_pop pkb' prf).
Proof.
  intros pkb pkb' prf S Hs. destruct (same_keys _ _ S) as [K K']. rewrite (C73_pop_accepts _ _ K Hs), (C73_pop_accepts _ _ K' Hs).
  pose proof (same_string _ _ S) as X. split; intros (a & H & S1 & R); exists a, H; split; try exact R; apply X; exact S1.
Qed.
Theorem C73_aggregate_reencode : forall pkbs pkbs' ms sb chk, Forall2 same_point pkbs pkbs' -> Forall message ms -> sig_string sb ->
  (wire_aggregate pkbs ms sb chk <-> wire_aggregate pkbs' ms sb chk).
Proof.
  assert (G : forall pkbs pkbs' ms sb chk, Forall2 same_point pkbs pkbs' -> Forall message ms -> sig_string sb -> wire_aggregate pkbs ms sb chk -> wire_aggregate pkbs' ms sb chk).
  { intros pkbs pkbs' ms sb chk S Hm Hs.
    assert (K : Forall key_string pkbs /\ Forall key_string pkbs').
    { clear - S. induction S as [|b b' l l' H S [I1 I2]]; split; constructor; auto; apply (same_keys _ _ H). }
    destruct K as [K K']. rewrite (C73_aggregate_accepts _ _ _ chk K Hm Hs), (C73_aggregate_accepts _ _ _ chk K' Hm Hs). intros (L & N & T & A & R).
    split; [rewrite <- (f2_len _ _ _ S); exact L|]. split; [exact N|]. exists T. split; [|exact R]. clear - S A. revert T A.
    induction S as [|b b' l l' H S IH]; intros T A; inversion A; subst; constructor; [apply (same_string _ _ H); assumption|apply IH; assumption]. }
  intros pkbs pkbs' ms sb chk S Hm Hs. split; apply G; auto. clear - S. induction S as [|b b' l l' (P & H1 & H2) S IH]; constructor; auto. exists P. auto.
Qed.
(** ** honest strings are accepted *)
Theorem C73_pop_roundtrip : forall sk (H : E2), key sk -> ~ (order | val sk) -> hash_to_curve (pop_message (cpt (b := b1) (zmul (val sk) G1gen))) DST_POP H -> H <> gid ->
  exists s, pop_prove sk = Ok s /\ wire_pop (g1_toCompressed (public_key sk)) (g2_toCompressed s).
Proof.
  intros sk H [Wk _] ND HH NH. destruct (pop_prove_ok sk Wk) as (s & H' & E & HH' & HR). pose proof (hash_fun _ _ _ _ HH HH') as <-. exists s. split; [exact E|].
  destruct (comp1 _ _ (public_key_ok sk Wk)) as (B1 & L1 & S1). { intros Z. exact (ND (zmul_prime order _ _ order_prime G1gen_r G1gen_nz Z)). }
  destruct (comp2 _ _ HR) as (B2 & L2 & S2). { intros Z. exact (ND (zmul_prime order _ _ order_prime (hash_order _ _ _ HH) NH Z)). }
  apply (C73_pop_accepts _ _ (conj B1 L1) (conj B2 L2)). exists (val sk), H. auto.
Qed.
(** signers (secret key, message); the aggregate must not be the identity *)
Theorem C73_aggregate_roundtrip : forall kms sigs chk (S : E2), Forall (fun km => key (fst km) /\ ~ (order | val (fst km)) /\ message (snd km)) kms ->
  Forall2 (fun km s => sign (fst km) (snd km) = Ok s) kms sigs -> (chk = true -> NoDup (map snd kms)) -> rep2g (aggregate_signatures sigs) S -> S <> gid ->
  wire_aggregate (map (fun km => g1_toCompressed (public_key (fst km))) kms) (map snd kms) (g2_toCompressed (aggregate_signatures sigs)) chk.
Proof.
  intros kms sigs chk S F FS N RS NS.
  assert (K : Forall (fun km => key (fst km) /\ message (snd km)) kms) by (eapply Forall_impl; [|exact F]; cbv beta; intros km (A & _ & B); auto).
  assert (M : Forall message (map snd kms)) by (clear - F; induction F as [|km l (_ & _ & B) F IH]; constructor; auto).
  pose proof (C50_honest kms sigs chk K FS N) as V.
  assert (SK : Forall2 stands1 (map (fun km => g1_toCompressed (public_key (fst km))) kms) (map (fun km => zmul (val (fst km)) G1gen) kms) /\
               Forall2 rep1g (map (fun km => public_key (fst km)) kms) (map (fun km => zmul (val (fst km)) G1gen) kms)).
  { clear - F. induction F as [|[sk m] l ([Wk _] & ND & _) F [I1 I2]]; split; cbn [map fst]; constructor; auto.
    - cbn [fst] in *. destruct (comp1 _ _ (public_key_ok sk Wk)) as (_ & _ & S1); [|exact S1]. intros Z. exact (ND (zmul_prime order _ _ order_prime G1gen_r G1gen_nz Z)).
    - exact (public_key_ok sk Wk). }
  destruct SK as [SK RK]. destruct (comp2 _ _ RS NS) as (B2 & L2 & S2).
  assert (KS : Forall key_string (map (fun km => g1_toCompressed (public_key (fst km))) kms)).
  { clear - SK. revert SK. generalize (map (fun km : list Z * list Z => zmul (val (fst km)) G1gen) kms). generalize (map (fun km : list Z * list Z => g1_toCompressed (public_key (fst km))) kms).
    intros l l' SK. induction SK as [|b P l l' (B & L & _) SK IH]; constructor; [split; assumption|exact IH]. }
  destruct (aggregate_ok _ _ (aggregate_signatures sigs) chk (reps_coords _ _ RK) M (rep2g_coords _ _ RS)) as (b & E & Hb). rewrite V in E. injection E as <-.
  destruct (proj1 Hb eq_refl) as (L & N' & T & KT & HT & R).
  apply (C73_aggregate_accepts _ _ _ chk KS M (conj B2 L2)). split; [rewrite !map_length; reflexivity|]. split; [exact N|]. exists T. split; [|split; [exact HT|]].
  - clear - SK RK KT. revert T KT. induction kms as [|km l IH]; intros T KT; cbn [map] in *; inversion KT as [|? aH ? T' K1 K2]; subst; [constructor|].
    inversion SK as [|? ? ? ? SK1 SK2]; subst. inversion RK as [|? ? ? ? RK1 RK2]; subst. constructor; [|apply IH; assumption]. rewrite <- (rep1g_fun _ _ _ RK1 K1). exact SK1.
  - exact (eq_ind _ (stands2 _) S2 _ (rep2g_fun _ _ _ RS R)).
Qed.
(** ** sums that are the identity *)
(** the code returns the coordinates (0, 1, 0) for p + (-p) *)
Theorem C73_opposite : (forall p q (P : E1), P <> gid -> rep1g p P -> rep1g q (ginv P) -> g1_add p q = g1_zero) /\
  (forall p q (P : E2), P <> gid -> rep2g p P -> rep2g q (ginv P) -> g2_add p q = g2_zero).
Proof. exact (conj add_opp1 add_opp2). Qed.
(** ... so for every signer there is a second one such that the aggregate of both signatures on one message is accepted as a value, while its
    compressed string is rejected, and the compressed aggregate key is decoded to another point *)
Theorem C73_identity_refuted : forall sk m (H : E2), key sk -> 0 < val sk < order -> message m -> hash_to_curve m DST_SIG H -> H <> gid ->
  exists sk' s s', key sk' /\ 0 < val sk' < order /\ sign sk m = Ok s /\ sign sk' m = Ok s' /\
    pop_fast_aggregate_verify [public_key sk; public_key sk'] m (aggregate_signatures [s; s']) = Ok true /\
    aggregate_verify [public_key sk; public_key sk'] [m; m] (aggregate_signatures [s; s']) false = Ok true /\
    g2_fromCompressed (g2_toCompressed (aggregate_signatures [s; s'])) = None /\
    exists q (Q : E1), g1_fromCompressed (g1_toCompressed (aggregate_public_keys [public_key sk; public_key sk'])) = Some q /\ rep1g q Q /\ Q <> gid.
Proof.
  intros sk m H K Rk Hm HH NH. set (a := val sk) in *. pose (sk' := limbs_of 4 (order - a)).
  assert (W4 : 0 <= order - a < W ^ Z.of_nat 4) by (split; [lia|apply (Z.lt_trans _ order); [lia|reflexivity]]).
  assert (V' : val sk' = order - a) by exact (limbs_of_small 4 _ W4).
  assert (K' : key sk') by (split; [apply limbs_of_words|apply limbs_of_length]).
  destruct (sign_ok sk m (proj1 K) Hm) as (s & H1 & E & HH1 & R & OH). destruct (sign_ok sk' m (proj1 K') Hm) as (s' & H2 & E' & HH2 & R' & _).
  pose proof (hash_fun _ _ _ _ HH HH1) as <-. pose proof (hash_fun _ _ _ _ HH HH2) as <-. fold a in R.
  assert (ND : ~ (order | a)) by (intros D; apply Z.divide_pos_le in D; lia).
  assert (NA : zmul a H <> gid) by (intros Z; exact (ND (zmul_prime order _ _ order_prime OH NH Z))).
  assert (NG : (zmul a G1gen : E1) <> gid) by (intros Z; exact (ND (zmul_prime order _ _ order_prime G1gen_r G1gen_nz Z))).
  rewrite V', zmul_sub, OH, g_id in R'.
  pose proof (public_key_ok sk (proj1 K)) as P. fold a in P. pose proof (public_key_ok sk' (proj1 K')) as P'. rewrite V', zmul_sub, G1gen_r, g_id in P'.
  assert (A2 : aggregate_signatures [s; s'] = g2_zero) by exact (add_opp2 s s' _ NA R R').
  assert (A1 : aggregate_public_keys [public_key sk; public_key sk'] = g1_zero) by exact (add_opp1 _ _ _ NG P P').
  exists sk', s, s'. split; [exact K'|]. split; [rewrite V'; lia|]. split; [exact E|]. split; [exact E'|]. split; [|split; [|split]].
  - apply (C51_fast_honest [sk; sk'] m [s; s']); [discriminate|exact (Forall_cons _ K (Forall_cons _ K' (Forall_nil _)))|exact Hm|exact (Forall2_cons _ _ E (Forall2_cons _ _ E' (Forall2_nil _)))].
  - apply (C50_honest [(sk, m); (sk', m)] [s; s'] false); [exact (Forall_cons (sk, m) (conj K Hm) (Forall_cons (sk', m) (conj K' Hm) (Forall_nil _)))|exact (Forall2_cons (sk, m) s E (Forall2_cons (sk', m) s' E' (Forall2_nil _)))|discriminate].
  - rewrite A2. exact C32_g2_infinity_refuted.
  - rewrite A1. exact C32_g1_infinity_refuted.
Qed.
(** ** the decoder does not check the subgroup: keys outside it are accepted by fast aggregate verification *)
Theorem C73_subgroup_refuted : forall sk m (H : E2), key sk -> 0 < val sk < order -> message m -> hash_to_curve m DST_SIG H -> H <> gid ->
  exists b1 b2 sb, key_string b1 /\ key_string b2 /\ sig_string sb /\ wire_fast [b1; b2] m sb /\
    (forall m' sb', message m' -> sig_string sb' -> ~ wire_accepts b1 m' sb' /\ ~ wire_accepts b2 m' sb').
Proof.
  intros sk m H K Rk Hm HH NH. destruct order3 as (T & NT & T3). set (a := val sk) in *.
  assert (ND : ~ (order | a)) by (intros D; apply Z.divide_pos_le in D; lia).
  pose (P := gop (zmul a G1gen) T : E1). pose (Q := ginv T : E1).
  assert (OP : zmul order P <> gid).
  { unfold P. rewrite zmul_op, zord, g_id; [exact NT|exact G1gen_r]. }
  assert (OQ : zmul order Q <> gid).
  { unfold Q. rewrite zmul_inv. intros X. apply NT. rewrite <- (g_inv_inv (zmul order T)), X. apply g_inv_0. }
  assert (NP : P <> gid) by (intros X; apply OP; rewrite X; apply zmul_id). assert (NQ : Q <> gid) by (intros X; apply OQ; rewrite X; apply zmul_id).
  destruct (rep1_ex P) as (p & Rp). destruct (rep1_ex Q) as (q & Rq). destruct (comp1 _ _ Rp NP) as (B1 & L1 & S1). destruct (comp1 _ _ Rq NQ) as (B2 & L2 & S2).
  destruct (sign_ok sk m (proj1 K) Hm) as (s & H1 & E & HH1 & R & OH). pose proof (hash_fun _ _ _ _ HH HH1) as <-. fold a in R.
  destruct (comp2 _ _ R) as (B3 & L3 & S3). { intros Z. exact (ND (zmul_prime order _ _ order_prime OH NH Z)). }
  exists (g1_toCompressed p), (g1_toCompressed q), (g2_toCompressed s). split; [split; assumption|]. split; [split; assumption|]. split; [split; assumption|]. split.
  - apply (C73_fast_accepts _ _ _ H); [discriminate|exact (Forall_cons _ (conj B1 L1) (Forall_cons _ (conj B2 L2) (Forall_nil _)))|exact Hm|exact HH|split; assumption|].
    exists [P; Q], a. split; [exact (Forall2_cons _ _ S1 (Forall2_cons _ _ S2 (Forall2_nil _)))|]. split; [|exact S3]. unfold P, Q. cbn [gsum fold_right]. rewrite g_id_r, g_assoc, g_inv, g_id_r. reflexivity.
  - assert (X : forall b (P : E1) m' sb', key_string b -> stands1 b P -> zmul order P <> gid -> message m' -> sig_string sb' -> ~ wire_accepts b m' sb').
    { clear. intros b P m' sb' [B L] S N Hm [Bs Ls] A. destruct (hash_ex m' DST_SIG (proj1 Hm) DST_SIG_bytes ltac:(vm_compute; repeat constructor)) as (H & HH).
      apply (C67_accepts b m' sb' H B L Bs Ls Hm HH) in A. destruct A as (k & S' & _). apply N. rewrite (stands1_fun _ _ _ S S'). apply zord, G1gen_r. }
    intros m' sb' Hm' Hs'. split; [apply (X _ P); try assumption; split; assumption|apply (X _ Q); try assumption; split; assumption].
Qed.

(** the secret key 1: its proof of possession hashes to a finite point.  Two signers of "hi": the aggregate is a finite point. *)
Example C73_pop_nontrivial : exists H : E2, key [1; 0; 0; 0] /\ ~ (order | val [1; 0; 0; 0]) /\ hash_to_curve (pop_message (cpt (b := b1) (zmul (val [1; 0; 0; 0]) G1gen))) DST_POP H /\ H <> gid.
Proof.
  destruct vp_hash as (H & HH & C). rewrite <- vp_msg in HH. exists H. split; [split; [apply wordsb_ok; reflexivity|reflexivity]|].
  split; [intros D; apply Z.mod_divide in D; [vm_compute in D; discriminate D|discriminate]|]. split; [exact HH|exact (finite2 _ _ _ C)].
Qed.
Example C73_aggregate_nontrivial : exists sigs (S : E2), let kms := [([5; 0; 0; 2 ^ 62], [104; 105]); ([7; 0; 0; 0], [104; 105])] in
  Forall (fun km => key (fst km) /\ ~ (order | val (fst km)) /\ message (snd km)) kms /\ Forall2 (fun km s => sign (fst km) (snd km) = Ok s) kms sigs /\
  rep2g (aggregate_signatures sigs) S /\ S <> gid.
Proof.
  destruct vh_hash as (H & HH & C). assert (Hm : message [104; 105]) by (split; [repeat constructor; discriminate|reflexivity]).
  assert (W1 : words [5; 0; 0; 2 ^ 62]) by (apply wordsb_ok; reflexivity). assert (W2 : words [7; 0; 0; 0]) by (apply wordsb_ok; reflexivity).
  destruct (sign_ok _ _ W1 Hm) as (s1 & H1 & E1 & HH1 & R1 & OH). destruct (sign_ok _ _ W2 Hm) as (s2 & H2 & E2 & HH2 & R2 & _).
  pose proof (hash_fun _ _ _ _ HH HH1) as <-. pose proof (hash_fun _ _ _ _ HH HH2) as <-.
  exists [s1; s2], (gop (zmul (val [5; 0; 0; 2 ^ 62]) H) (zmul (val [7; 0; 0; 0]) H)). cbv zeta.
  assert (ND : forall n, n mod order <> 0 -> ~ (order | n)) by (intros n N D; apply Z.mod_divide in D; [exact (N D)|discriminate]).
  split; [|split; [|split]].
  - repeat apply Forall_cons; [| |apply Forall_nil]; cbn [fst snd]; (split; [split; [assumption|reflexivity]|]); (split; [|exact Hm]); apply ND; vm_compute; discriminate.
  - exact (Forall2_cons (_, _) _ E1 (Forall2_cons (_, _) _ E2 (Forall2_nil _))).
  - exact (rep2g_add _ _ _ _ R1 R2).
  - rewrite <- zmul_add. intros Z. pose proof (zmul_prime order _ _ order_prime OH (finite2 _ _ _ C) Z) as D. revert D. apply ND. vm_compute. discriminate.
Qed.

Definition props_wire2 := (C73_pop_accepts, C73_aggregate_accepts, C73_fast_accepts, C73_pop_reencode, C73_aggregate_reencode, C73_pop_roundtrip, C73_aggregate_roundtrip, C73_opposite, C73_identity_refuted, C73_subgroup_refuted).
Print Assumptions props_wire2.
