(** The limb-level class fp (ModelLimb.v) refines the value-level one (ModelFp.v), for every back end that computes the
    value-level primitives; the assembly is one. *)
From Coq Require Import ZArith List Bool Lia.
From Verif Require Import SpecBytes SpecField SpecOrder ModelWord ModelScalar ModelPrim ModelFp PortArith X86 AsmCode AsmTac AsmProof1 AsmProof3 AsmProof4 AsmSpec ModelLimb.
From Verif Require Import ScalarProof BytesProof CarryProof FpProof.
Import ListNotations.
Local Open Scope Z_scope.

Definition ok2 (f : list Z -> list Z -> list Z) (g : Z -> Z -> Z) : Prop :=
  forall x y, six x -> six y -> six (f x y) /\ val (f x y) = g (val x) (val y).
Definition ok1 (f : list Z -> list Z) (g : Z -> Z) : Prop := forall x, six x -> six (f x) /\ val (f x) = g (val x).
Record backend_ok (b : backend) : Prop := {
  ok_add : ok2 (b_add b) fp_add; ok_ladd : ok2 (b_ladd b) fp_ladd; ok_double : ok1 (b_double b) fp_double;
  ok_ldouble : ok1 (b_ldouble b) fp_ldouble; ok_sub : ok2 (b_subtract b) fp_sub; ok_lsub : ok2 (b_lsubtract b) fp_lsub;
  ok_neg : ok1 (b_negate b) fp_neg; ok_mul : ok2 (b_multiply b) fp_mul; ok_sqr : ok1 (b_square b) fp_sqr }.

(** * Bits *)
Lemma six_elim (P : list Z -> Prop) : (forall a b c d e f, word a -> word b -> word c -> word d -> word e -> word f -> P [a; b; c; d; e; f]) ->
  forall x, six x -> P x.
Proof.
  intros H x (L & Wx). destruct x as [|a [|b [|c [|d [|e [|f [|g x]]]]]]]; try discriminate L.
  repeat match goal with H : words (_ :: _) |- _ => inversion H; clear H; subst | H : Forall word (_ :: _) |- _ => inversion H; clear H; subst end.
  apply H; assumption.
Qed.
Lemma six_val_inj x y : six x -> six y -> val x = val y -> x = y.
Proof. intros (L1 & W1) (L2 & W2). apply val_inj; auto. congruence. Qed.
Lemma six_mk a b c d e f : word a -> word b -> word c -> word d -> word e -> word f -> six [a; b; c; d; e; f].
Proof. intros. split; [reflexivity|]. repeat constructor; assumption || (apply H || apply H0 || apply H1 || apply H2 || apply H3 || apply H4). Qed.
Lemma div2_limb a b : word a -> word b -> Z.lor (Z.shiftr a 1) (shl64 b 63) = a / 2 + 2 ^ 63 * (b mod 2).
Proof.
  intros Ha Hb. unfold shl64, word in *. rewrite Z.shiftr_div_pow2 by lia. change (2 ^ 1) with 2.
  replace (Z.shiftl b 63 mod W) with (Z.shiftl (b mod 2) 63).
  - rewrite lor_shift; [ring|lia| |apply Z.mod_pos_bound; lia]. split; [apply Z.div_pos; lia|]. apply Z.div_lt_upper_bound; unfold W in *; lia.
  - rewrite !Z.shiftl_mul_pow2 by lia. change W with (2 * 2 ^ 63). symmetry. apply Z.mul_mod_distr_r; lia.
Qed.
Lemma mul2_limb a b : word a -> word b -> Z.lor (shl64 b 1) (Z.shiftr a 63) = 2 * (b mod 2 ^ 63) + a / 2 ^ 63.
Proof.
  intros Ha Hb. unfold shl64, word in *. rewrite Z.lor_comm. rewrite Z.shiftr_div_pow2 by lia.
  replace (Z.shiftl b 1 mod W) with (Z.shiftl (b mod 2 ^ 63) 1).
  - rewrite lor_shift; [lia|lia| |apply Z.mod_pos_bound; lia]. split; [apply Z.div_pos; lia|]. apply Z.div_lt_upper_bound; unfold W in *; lia.
  - rewrite !Z.shiftl_mul_pow2 by lia. change W with (2 ^ 63 * 2 ^ 1). symmetry. apply Z.mul_mod_distr_r; lia.
Qed.
Lemma shl1_limb a : word a -> shl64 a 1 = 2 * (a mod 2 ^ 63).
Proof. intros Ha. pose proof (mul2_limb 0 a word0 Ha) as H. rewrite Z.lor_0_r in H. rewrite H. change (0 / 2 ^ 63) with 0. ring. Qed.
Ltac parts a := let q := fresh "q" in let r := fresh "r" in
  pose proof (Z.div_mod a 2 ltac:(lia)); pose proof (Z.mod_pos_bound a 2 ltac:(lia));
  set (q := a / 2) in *; set (r := a mod 2) in *; clearbody q r.
Ltac parts63 a := let q := fresh "q" in let r := fresh "r" in
  pose proof (Z.div_mod a (2 ^ 63) ltac:(lia)); pose proof (Z.mod_pos_bound a (2 ^ 63) ltac:(lia));
  set (q := a / 2 ^ 63) in *; set (r := a mod 2 ^ 63) in *; clearbody q r.
Lemma l_div2_ok x e : six x -> word e -> six (l_div2 x e) /\ val (l_div2 x e) = val x / 2 + 2 ^ 383 * (e mod 2).
Proof.
  intros Hx He. revert x Hx. apply six_elim. intros a b c d f g Ha Hb Hc Hd Hf Hg. unfold l_div2. cbn [limb nth].
  rewrite !div2_limb by assumption. unfold word, W in *.
  assert (E : val [a; b; c; d; f; g] / 2 = val [a / 2 + 2 ^ 63 * (b mod 2); b / 2 + 2 ^ 63 * (c mod 2); c / 2 + 2 ^ 63 * (d mod 2); d / 2 + 2 ^ 63 * (f mod 2); f / 2 + 2 ^ 63 * (g mod 2); g / 2]).
  { cbn [val]. unfold W. parts a. parts b. parts c. parts d. parts f. parts g. symmetry. apply (Z.div_unique _ _ _ r); [lia|]. subst. ring. }
  rewrite E. cbn [val]. split.
  - apply six_mk; unfold word, W; parts a; parts b; parts c; parts d; parts f; parts g; parts e; lia.
  - unfold W. change (2 ^ 383) with (2 ^ 64 * (2 ^ 64 * (2 ^ 64 * (2 ^ 64 * (2 ^ 64 * 2 ^ 63))))). ring.
Qed.
Lemma l_mul2_ok x : six x -> six (fst (l_mul2 x)) /\ word (snd (l_mul2 x)) /\
  val (fst (l_mul2 x)) + R384 * snd (l_mul2 x) = 2 * val x /\ val (fst (l_mul2 x)) = fp_mul2 (val x).
Proof.
  intros Hx. assert (S : six (fst (l_mul2 x)) /\ word (snd (l_mul2 x)) /\ val (fst (l_mul2 x)) + R384 * snd (l_mul2 x) = 2 * val x).
  { revert x Hx. apply six_elim. intros a b c d f g Ha Hb Hc Hd Hf Hg. unfold l_mul2. cbn [limb nth fst snd].
    rewrite !mul2_limb, shl1_limb by assumption. rewrite Z.shiftr_div_pow2 by lia. unfold word, W in *.
    parts63 a. parts63 b. parts63 c. parts63 d. parts63 f. parts63 g.
    split; [apply six_mk; unfold word, W; lia|]. split; [unfold word, W; lia|]. cbn [val].
    change R384 with (2 ^ 64 * (2 ^ 64 * (2 ^ 64 * (2 ^ 64 * (2 ^ 64 * (2 * 2 ^ 63)))))). unfold W. subst. change (2 ^ 64) with (2 * 2 ^ 63). ring. }
  destruct S as (S & Wd & E). split; [exact S|]. split; [exact Wd|]. split; [exact E|]. unfold fp_mul2. rewrite <- E.
  rewrite Z.mul_comm, Z.mod_add by discriminate. symmetry. apply Z.mod_small, six_bound, S.
Qed.
Lemma lor_zero a b : 0 <= a -> 0 <= b -> (Z.lor a b =? 0) = ((a =? 0) && (b =? 0))%bool.
Proof. intros Ha Hb. apply eq_true_iff_eq. rewrite andb_true_iff, !Z.eqb_eq. apply Z.lor_eq_0_iff. Qed.
Lemma l_isZero_ok x : six x -> l_isZero x = fp_isZero (val x).
Proof.
  intros Hx. unfold fp_isZero. rewrite <- six_zero by apply Hx. revert x Hx. apply six_elim. intros a b c d f g Ha Hb Hc Hd Hf Hg.
  unfold l_isZero. cbn [limb nth forallb]. unfold word in *.
  rewrite !lor_zero by (rewrite ?Z.lor_nonneg; lia). rewrite andb_true_r.
  destruct (a =? 0), (b =? 0), (c =? 0), (d =? 0), (f =? 0), (g =? 0); reflexivity.
Qed.
Lemma l_cmp_ok x y : six x -> six y -> l_cmp x y = fp_cmp (val x) (val y).
Proof.
  intros (L1 & W1) (L2 & W2). unfold l_cmp, fp_cmp. rewrite <- scalar_cmp_ok by (auto; congruence). unfold scalar_cmp. rewrite L1. reflexivity.
Qed.
Lemma l_equal_ok x y : six x -> six y -> l_equal x y = fp_equal (val x) (val y).
Proof.
  intros (L1 & W1) (L2 & W2). unfold l_equal, fp_equal. rewrite <- scalar_equal_ok by (auto; congruence). unfold scalar_equal. rewrite L1.
  cbn [seq forallb]. rewrite andb_true_r, <- !andb_assoc. reflexivity.
Qed.
Lemma limb0_mod x : words x -> limb x 0 = val x mod W.
Proof.
  intros H. destruct H as [|a l Ha Hl]; [reflexivity|]. cbn [limb nth val]. rewrite Z.mul_comm, Z.mod_add by discriminate. symmetry. apply Z.mod_small, Ha.
Qed.
Lemma l_isEven_ok x : six x -> l_isEven x = fp_isEven (val x).
Proof. intros (_ & H). unfold l_isEven, fp_isEven. rewrite limb0_mod by exact H. reflexivity. Qed.
Lemma l_isOdd_ok x : six x -> l_isOdd x = Z.odd (val x).
Proof.
  intros (_ & H). unfold l_isOdd. rewrite limb0_mod by exact H. rewrite <- Z.negb_even. f_equal.
  change 1 with (Z.ones 1) at 1. rewrite Z.land_ones by lia. change (2 ^ 1) with 2. rewrite <- Znumtheory.Zmod_div_mod; [|lia|reflexivity|exists (2 ^ 63); reflexivity].
  rewrite Zmod_even. destruct (Z.even (val x)); reflexivity.
Qed.
Lemma R1l_six : six R1l. Proof. split; [reflexivity|repeat constructor; discriminate]. Qed.
Lemma R2l_six : six R2l. Proof. split; [reflexivity|repeat constructor; discriminate]. Qed.
Lemma phil_six : six glvPhi1l. Proof. split; [reflexivity|repeat constructor; discriminate]. Qed.
Lemma l1_six : six l_1. Proof. split; [reflexivity|repeat constructor; discriminate]. Qed.
Lemma l0_six : six l_zero. Proof. split; [reflexivity|repeat constructor; discriminate]. Qed.
Lemma l_isOne_ok x : six x -> l_isOne x = fp_isOne (val x).
Proof. intros H. exact (l_equal_ok x R1l H R1l_six). Qed.
Lemma l_isValid_ok x : six x -> l_isValid x = fp_isValid (val x).
Proof. intros H. unfold l_isValid, fp_isValid. rewrite (l_cmp_ok x MODl H MODl_six). reflexivity. Qed.
Lemma l_power_ok k : 0 <= k -> match l_power k with Some p => k < 384 /\ six p /\ val p = 2 ^ k | None => 384 <= k end.
Proof.
  intros Hk. unfold l_power. destruct (Z.leb_spec 0 (k / 64)) as [A|A]; [|assert (0 <= k / 64) by (apply Z.div_pos; lia); lia].
  destruct (Z.ltb_spec (k / 64) 6) as [B|B]; cbn [andb].
  - pose proof (Z.div_mod k 64 ltac:(lia)) as E. pose proof (Z.mod_pos_bound k 64 ltac:(lia)) as M.
    set (i := k / 64) in *. set (r := k mod 64) in *. clearbody i r.
    assert (S : shl64 1 r = 2 ^ r).
    { unfold shl64. rewrite Z.shiftl_mul_pow2, Z.mul_1_l by lia. apply Z.mod_small. split; [apply Z.pow_nonneg; lia|]. change W with (2 ^ 64). apply Z.pow_lt_mono_r; lia. }
    rewrite S. assert (P : word (2 ^ r)) by (split; [apply Z.pow_nonneg; lia|change W with (2 ^ 64); apply Z.pow_lt_mono_r; lia]).
    assert (X : i = 0 \/ i = 1 \/ i = 2 \/ i = 3 \/ i = 4 \/ i = 5) by lia. pose proof word0.
    split; [lia|]. rewrite E. rewrite Z.pow_add_r, Z.pow_mul_r by lia.
    destruct X as [X|[X|[X|[X|[X|X]]]]]; subst i; cbn [map seq Z.of_nat Z.eqb Pos.eqb Pos.of_succ_nat Pos.succ];
      (split; [apply six_mk; assumption|]); cbn [val]; unfold W; ring.
  - apply Z.nlt_ge. intros C. assert (k / 64 < 6) by (apply Z.div_lt_upper_bound; lia). lia.
Qed.

(** * The class over a correct back end *)
Section L.
Context (b : backend) (Hb : backend_ok b).
Lemma l_toMont_ok : ok1 (l_toMont b) fp_toMont. Proof. intros x H. exact (ok_mul b Hb x R2l H R2l_six). Qed.
Lemma l_fromMont_ok : ok1 (l_fromMont b) fp_fromMont. Proof. intros x H. exact (ok_mul b Hb x l_1 H l1_six). Qed.
Lemma l_phi_ok : ok1 (l_phi b) fp_phi. Proof. intros x H. exact (ok_mul b Hb x glvPhi1l H phil_six). Qed.
Lemma l_sign_ok x : six x -> l_sign b x = fp_sign (val x).
Proof. intros H. unfold l_sign, fp_sign. destruct (l_fromMont_ok x H) as [S E]. rewrite limb0_mod, E by apply S. reflexivity. Qed.
Lemma half_ok x : six x -> six (l_div2 x 0) /\ val (l_div2 x 0) = fp_div2 (val x).
Proof. intros H. destruct (l_div2_ok x 0 H word0) as [S E]. split; [exact S|]. rewrite E. unfold fp_div2. change (0 mod 2) with 0. ring. Qed.
Lemma l_inv_loop_ok n : forall u v s r k, six u -> six v -> six s -> six r ->
  match l_inv_loop b n u v s r k with
  | Some (r', k') => six r' /\ inv_loop n (val u) (val v) (val s) (val r) k = Some (val r', k')
  | None => inv_loop n (val u) (val v) (val s) (val r) k = None
  end.
Proof.
  induction n as [|n IH]; intros u v s r k Hu Hv Hs Hr; [reflexivity|]. cbn [l_inv_loop inv_loop].
  rewrite l_isZero_ok by exact Hv. destruct (fp_isZero (val v)); [split; [exact Hr|reflexivity]|].
  destruct (half_ok u Hu) as [S1 E1]. destruct (half_ok v Hv) as [S2 E2].
  destruct (l_mul2_ok s Hs) as (S3 & _ & _ & E3). destruct (l_mul2_ok r Hr) as (S4 & _ & _ & E4).
  destruct (ok_ladd b Hb r s Hr Hs) as [S5 E5]. destruct (ok_ladd b Hb s r Hs Hr) as [S6 E6].
  destruct (ok_lsub b Hb u v Hu Hv) as [S7 E7]. destruct (ok_lsub b Hb v u Hv Hu) as [S8 E8].
  destruct (half_ok _ S7) as [S9 E9]. destruct (half_ok _ S8) as [S10 E10].
  rewrite !l_isEven_ok, l_cmp_ok by assumption.
  destruct (fp_isEven (val u)).
  { specialize (IH (l_div2 u 0) v (fst (l_mul2 s)) r (k + 1) S1 Hv S3 Hr). rewrite E1, E3 in IH. exact IH. }
  destruct (fp_isEven (val v)).
  { specialize (IH u (l_div2 v 0) s (fst (l_mul2 r)) (k + 1) Hu S2 Hs S4). rewrite E2, E4 in IH. exact IH. }
  assert (L : match l_inv_loop b n u (l_div2 (b_lsubtract b v u) 0) (b_ladd b s r) (fst (l_mul2 r)) (k + 1) with
    | Some (r', k') => six r' /\ inv_loop n (val u) (fp_div2 (fp_lsub (val v) (val u))) (fp_ladd (val s) (val r)) (fp_mul2 (val r)) (k + 1) = Some (val r', k')
    | None => inv_loop n (val u) (fp_div2 (fp_lsub (val v) (val u))) (fp_ladd (val s) (val r)) (fp_mul2 (val r)) (k + 1) = None end).
  { specialize (IH u (l_div2 (b_lsubtract b v u) 0) (b_ladd b s r) (fst (l_mul2 r)) (k + 1) Hu S10 S6 S4). rewrite E10, E8, E6, E4 in IH. exact IH. }
  destruct (fp_cmp (val u) (val v)); [exact L|exact L|].
  specialize (IH (l_div2 (b_lsubtract b u v) 0) v (fst (l_mul2 s)) (b_ladd b r s) (k + 1) S9 Hv S3 S5). rewrite E9, E7, E5, E3 in IH. exact IH.
Qed.
Lemma l_inverse_ok x : six x ->
  match l_inverse b x with Some y => six y /\ fp_inverse_opt (val x) = Some (val y) | None => fp_inverse_opt (val x) = None end.
Proof.
  intros Hx. unfold l_inverse, fp_inverse_opt. rewrite l_isZero_ok by exact Hx.
  destruct (fp_isZero (val x)); [split; [exact l0_six|reflexivity]|].
  pose proof (l_inv_loop_ok 768 MODl x l_1 l_zero 0 MODl_six Hx l1_six l0_six) as L.
  change (val MODl) with MODULUS in L. change (val l_1) with 1 in L. change (val l_zero) with 0 in L.
  destruct (l_inv_loop b 768 MODl x l_1 l_zero 0) as [[r k]|]; [|rewrite L; split; [exact l0_six|reflexivity]].
  destruct L as [Sr ->]. rewrite (l_cmp_ok r MODl Sr MODl_six). change (val MODl) with MODULUS.
  set (r1 := match fp_cmp (val r) MODULUS with Lt => r | _ => b_lsubtract b r MODl end).
  assert (R1' : six r1 /\ val r1 = match fp_cmp (val r) MODULUS with Lt => val r | _ => fp_lsub (val r) MODULUS end).
  { unfold r1. destruct (ok_lsub b Hb r MODl Sr MODl_six) as [S E]. destruct (fp_cmp (val r) MODULUS); [split; [exact S|exact E]|split; [exact Sr|reflexivity]|split; [exact S|exact E]]. }
  destruct R1' as [S1 <-]. clearbody r1.
  destruct (ok_lsub b Hb MODl r1 MODl_six S1) as [S2 E2]. change (val MODl) with MODULUS in E2. rewrite <- E2. clear E2.
  set (u := b_lsubtract b MODl r1) in *. clearbody u. destruct (ok_mul b Hb u R2l S2 R2l_six) as [S3 E3]. change (val R2l) with R2 in E3.
  assert (G : forall u' k', six u' -> 
    match (if 768 <? k' then Some l_zero else match l_power (768 - k') with Some p => Some (b_multiply b (b_multiply b u' R2l) p) | None => None end) with
    | Some y => six y /\ (if 768 <? k' then Some fp_zero else if 768 - k' <? 384 then Some (fp_mul (fp_mul (val u') R2) (2 ^ (768 - k'))) else None) = Some (val y)
    | None => (if 768 <? k' then Some fp_zero else if 768 - k' <? 384 then Some (fp_mul (fp_mul (val u') R2) (2 ^ (768 - k'))) else None) = None end).
  { intros u' k' S'. destruct (Z.ltb_spec 768 k') as [K|K]; [split; [exact l0_six|reflexivity]|].
    pose proof (l_power_ok (768 - k') ltac:(lia)) as P. destruct (l_power (768 - k')) as [p|].
    - destruct P as (P1 & P2 & P3). destruct (Z.ltb_spec (768 - k') 384); [|lia].
      destruct (ok_mul b Hb u' R2l S' R2l_six) as [S4 E4]. change (val R2l) with R2 in E4.
      destruct (ok_mul b Hb _ p S4 P2) as [S5 E5]. split; [exact S5|]. rewrite E5, E4, P3. reflexivity.
    - destruct (Z.ltb_spec (768 - k') 384); [lia|reflexivity]. }
  destruct (k <=? 384); cbv zeta beta iota.
  - rewrite <- E3. apply G, S3.
  - apply G, S2.
Qed.
Lemma l_exp_ok x s : six x -> six (l_exp b x s) /\ val (l_exp b x s) = fp_exp (val x) s.
Proof.
  intros Hx. unfold l_exp, fp_exp, gexp. generalize (Z.to_nat (bitLength s)). intros n.
  change fp_one with (val R1l). generalize R1l_six. generalize R1l. induction n as [|n IH]; intros z Hz; [split; [exact Hz|reflexivity]|].
  cbn [exp_loop]. destruct (ok_sqr b Hb z Hz) as [S1 E1]. rewrite <- E1. destruct (sbit s n); [|apply IH, S1].
  destruct (ok_mul b Hb _ x S1 Hx) as [S2 E2]. rewrite <- E2. apply IH, S2.
Qed.
Lemma l_sqrt_ok x : six x -> fst (l_sqrt b x) = fst (fp_sqrt (val x)) /\ six (snd (l_sqrt b x)) /\ val (snd (l_sqrt b x)) = snd (fp_sqrt (val x)).
Proof.
  intros Hx. unfold l_sqrt, fp_sqrt. destruct (l_exp_ok x (limbs_of 6 pPlus1Over4) Hx) as [S E]. cbn [fst snd]. rewrite <- E.
  destruct (ok_sqr b Hb _ S) as [S2 E2]. rewrite <- E2. split; [apply l_equal_ok; assumption|]. split; [exact S|reflexivity].
Qed.
Lemma l_isQNR_ok x : six x -> l_isQNR b x = fp_isQNR (val x).
Proof. intros Hx. unfold l_isQNR, fp_isQNR. destruct (l_exp_ok x (limbs_of 6 pMinus1Over2) Hx) as [S E]. rewrite <- E, l_isOne_ok by exact S. reflexivity. Qed.
Lemma six_limbs x : six x -> limbs_of 6 (val x) = x.
Proof. intros (L & H). rewrite <- L. apply limbs_of_of_val, H. Qed.
Lemma l_isLexLargest_ok x : six x -> l_isLexLargest b x = fp_isLexLargest (val x).
Proof.
  intros Hx. unfold l_isLexLargest, fp_isLexLargest. destruct (l_fromMont_ok x Hx) as [S E]. rewrite <- E, six_limbs by exact S. reflexivity.
Qed.
Lemma from_ok e (check mont : bool) : six e ->
  match (if check && negb (l_isValid e) then None else Some (if mont then l_toMont b e else e)) with
  | Some x => six x /\ (if check && negb (fp_isValid (val e)) then None else Some (if mont then fp_toMont (val e) else val e)) = Some (val x)
  | None => (if check && negb (fp_isValid (val e)) then None else Some (if mont then fp_toMont (val e) else val e)) = None end.
Proof.
  intros He. rewrite l_isValid_ok by exact He. destruct (check && negb (fp_isValid (val e))); [reflexivity|].
  destruct mont; [|split; [exact He|reflexivity]]. destruct (l_toMont_ok e He) as [S E]. split; [exact S|]. rewrite E. reflexivity.
Qed.
Lemma l_fromBytesBE_ok a check mont : bytes a -> length a = 48%nat ->
  match l_fromBytesBE b a check mont with Some x => six x /\ fp_fromBytesBE a check mont = Some (val x) | None => fp_fromBytesBE a check mont = None end.
Proof. intros Ha L. apply from_ok. split; [apply fromBytesBE_length|apply fromBytesBE_words; assumption]. Qed.
Lemma l_fromBytesLE_ok a check mont : bytes a -> length a = 48%nat ->
  match l_fromBytesLE b a check mont with Some x => six x /\ fp_fromBytesLE a check mont = Some (val x) | None => fp_fromBytesLE a check mont = None end.
Proof. intros Ha L. apply from_ok. split; [apply fromBytesLE_length|apply fromBytesLE_words; assumption]. Qed.
Lemma l_toBytes_ok x mont : six x -> l_toBytesBE b x mont = fp_toBytesBE (val x) mont /\ l_toBytesLE b x mont = fp_toBytesLE (val x) mont.
Proof.
  intros Hx. unfold l_toBytesBE, l_toBytesLE, fp_toBytesBE, fp_toBytesLE. destruct (l_fromMont_ok x Hx) as [S E].
  destruct mont; [rewrite <- E, six_limbs by exact S|rewrite six_limbs by exact Hx]; split; reflexivity.
Qed.
End L.

(** * The assembly *)
Lemma call_x x y : length x = 6%nat -> limbs_at (mem (call_state x y)) 1000 = x.
Proof. intros L. destruct x as [|a [|b [|c [|d [|e [|f [|g x]]]]]]]; try discriminate L. reflexivity. Qed.
Lemma call_y x y : length y = 6%nat -> limbs_at (mem (call_state x y)) 2000 = y.
Proof. intros L. destruct y as [|a [|b [|c [|d [|e [|f [|g y]]]]]]]; try discriminate L. reflexivity. Qed.
Lemma call_args2 x y n : six x -> six y -> 0 <= n <= 100 -> args2 (call_state x y) n.
Proof.
  intros (Lx & Wx) (Ly & Wy) N. unfold args2, words_at, off_stack. change (rsi (call_state x y)) with 1000. change (rdx (call_state x y)) with 2000.
  rewrite call_x, call_y by assumption. change (rdi (call_state x y)) with 3000. change (rsp (call_state x y)) with 9000.
  split; [exact Wx|]. split; [exact Wy|]. lia.
Qed.
Lemma asm_call_of code x y n v : six x -> six y -> stores code (call_state x y) n v -> six (asm_call code x y) /\ val (asm_call code x y) = v.
Proof.
  intros _ _ (s' & R & V & Wd & _). unfold asm_call. rewrite R. split; [split; [reflexivity|exact Wd]|exact V].
Qed.
Lemma call_val x y : six x -> six y -> fp_at (mem (call_state x y)) (rsi (call_state x y)) = val x /\ fp_at (mem (call_state x y)) (rdx (call_state x y)) = val y.
Proof. intros (Lx & _) (Ly & _). unfold fp_at. split; f_equal; [exact (call_x x y Lx)|exact (call_y x y Ly)]. Qed.
Lemma asm_add_stores s : args2 s 5 -> stores asm_add s 5 (fp_add (fp_at (mem s) (rsi s)) (fp_at (mem s) (rdx s))).
Proof. intros (W1 & W2 & O1 & O2 & O3). exact (asm_add_ok s W1 W2 O1 O2 O3). Qed.
Lemma asm_ladd_stores s : args2 s 0 -> stores asm_ladd s 0 (fp_ladd (fp_at (mem s) (rsi s)) (fp_at (mem s) (rdx s))).
Proof. intros (W1 & W2 & _). exact (asm_ladd_ok s W1 W2). Qed.
Lemma asm_double_stores s : args1 s 5 -> stores asm_double s 5 (fp_double (fp_at (mem s) (rsi s))).
Proof. intros (W1 & O1 & O2). exact (asm_double_ok s W1 O1 O2). Qed.
Lemma asm_ldouble_stores s : args1 s 0 -> stores asm_ldouble s 0 (fp_ldouble (fp_at (mem s) (rsi s))).
Proof. intros (W1 & _). exact (asm_ldouble_ok s W1). Qed.
Lemma asm_subtract_stores s : args2 s 5 -> stores asm_subtract s 5 (fp_sub (fp_at (mem s) (rsi s)) (fp_at (mem s) (rdx s))).
Proof. intros (W1 & W2 & O1 & O2 & O3). exact (asm_subtract_ok s W1 W2 O1 O2 O3). Qed.
Lemma asm_lsubtract_stores s : args2 s 0 -> stores asm_lsubtract s 0 (fp_lsub (fp_at (mem s) (rsi s)) (fp_at (mem s) (rdx s))).
Proof. intros (W1 & W2 & _). exact (asm_lsubtract_ok s W1 W2). Qed.
Lemma asm_negate_stores s : args1 s 0 -> stores asm_negate s 0 (fp_rawneg (fp_at (mem s) (rsi s))).
Proof. intros (W1 & _). exact (asm_negate_ok s W1). Qed.
Lemma args21 s n : args2 s n -> args1 s n. Proof. intros (A & _ & B & C & _). exact (conj A (conj B C)). Qed.
Lemma call2 code n g : 0 <= n <= 100 -> (forall s, args2 s n -> stores code s n (g (fp_at (mem s) (rsi s)) (fp_at (mem s) (rdx s)))) -> ok2 (asm_call code) g.
Proof.
  intros N H x y Hx Hy. specialize (H _ (call_args2 x y n Hx Hy N)). destruct (call_val x y Hx Hy) as [E1 E2]. rewrite E1, E2 in H.
  exact (asm_call_of _ _ _ _ _ Hx Hy H).
Qed.
Lemma call1 code n g : 0 <= n <= 100 -> (forall s, args1 s n -> stores code s n (g (fp_at (mem s) (rsi s)))) -> ok1 (fun x => asm_call code x x) g.
Proof. intros N H x Hx. exact (call2 code n (fun a _ => g a) N (fun s A => H s (args21 s n A)) x x Hx Hx). Qed.
Lemma mult_is : is_multiplier asm_multiply. Proof. exists true, true. reflexivity. Qed.
Lemma x86_ok code : is_multiplier code -> backend_ok (x86 code).
Proof.
  intros M. constructor; cbn [b_add b_ladd b_double b_ldouble b_subtract b_lsubtract b_negate b_multiply b_square x86].
  - apply (call2 _ 5); [lia|exact asm_add_stores].
  - apply (call2 _ 0); [lia|exact asm_ladd_stores].
  - apply (call1 _ 5); [lia|exact asm_double_stores].
  - apply (call1 _ 0); [lia|exact asm_ldouble_stores].
  - apply (call2 _ 5); [lia|exact asm_subtract_stores].
  - apply (call2 _ 0); [lia|exact asm_lsubtract_stores].
  - intros x Hx. unfold x86_negate, fp_neg. rewrite l_isZero_ok by exact Hx. unfold fp_isZero.
    destruct (val x =? 0); [split; [exact Hx|reflexivity]|]. exact (call1 _ 0 _ ltac:(lia) asm_negate_stores x Hx).
  - apply (call2 _ 17); [lia|]. intros s. apply multiplier_ok, M.
  - intros x Hx. exact (call2 _ 17 _ ltac:(lia) (fun s => multiplier_ok _ s mult_is) x x Hx Hx).
Qed.
(** every call, whatever the addresses, registers and memory, leaves the same limbs *)
Lemma any_call2 code n g s : 0 <= n <= 100 -> (forall s, args2 s n -> stores code s n (g (fp_at (mem s) (rsi s)) (fp_at (mem s) (rdx s)))) ->
  args2 s n -> exists s', run code s = Some s' /\ limbs_at (mem s') (rdi s) = asm_call code (limbs_at (mem s) (rsi s)) (limbs_at (mem s) (rdx s)).
Proof.
  intros N H A. destruct (H s A) as (s' & R & V & Wd & _). exists s'. split; [exact R|].
  destruct A as (W1 & W2 & _). destruct (call2 code n g N H (limbs_at (mem s) (rsi s)) (limbs_at (mem s) (rdx s)) (conj eq_refl W1) (conj eq_refl W2)) as [S E].
  apply six_val_inj; [split; [reflexivity|exact Wd]|exact S|]. rewrite E. exact V.
Qed.
Lemma any_call1 code n g s : 0 <= n <= 100 -> (forall s, args1 s n -> stores code s n (g (fp_at (mem s) (rsi s)))) ->
  args1 s n -> exists s', run code s = Some s' /\ limbs_at (mem s') (rdi s) = asm_call code (limbs_at (mem s) (rsi s)) (limbs_at (mem s) (rsi s)).
Proof.
  intros N H A. destruct (H s A) as (s' & R & V & Wd & _). exists s'. split; [exact R|].
  destruct A as (W1 & _). destruct (call1 code n g N H (limbs_at (mem s) (rsi s)) (conj eq_refl W1)) as [S E].
  apply six_val_inj; [split; [reflexivity|exact Wd]|exact S|]. rewrite E. exact V.
Qed.

(** * The multiplier *)
Lemma resolve_is environ cpuid : is_multiplier (resolve environ cpuid).
Proof. exists (existsb (has_prefix disable_str) environ), (cpu_has_bmi2_and_adx cpuid). reflexivity. Qed.
Lemma resolve_init_is cpuid : is_multiplier (resolve_init cpuid).
Proof. exists false, (cpu_has_bmi2_and_adx cpuid). reflexivity. Qed.
Lemma has_prefix_ok t : forall s, has_prefix t s = true <-> exists r, s = t ++ r.
Proof.
  induction t as [|a t IH]; intros s; cbn [has_prefix].
  - split; [intros _; exists s; reflexivity|reflexivity].
  - destruct s as [|c s]; [split; [discriminate|intros [r H]; discriminate H]|].
    rewrite andb_true_iff, Z.eqb_eq, IH. split.
    + intros [-> [r ->]]. exists r. reflexivity.
    + intros [r H]. cbn [app] in H. injection H as -> ->. split; [reflexivity|exists r; reflexivity].
Qed.
Lemma int32_bit v i : 0 <= v < 2 ^ 32 -> 0 <= i < 31 -> negb (Z.land (int32 v) (Z.shiftl 1 i) =? 0) = Z.testbit v i.
Proof.
  intros Hv Hi. assert (B : Z.testbit (int32 v) i = Z.testbit v i).
  { unfold int32. destruct (Z.ltb_spec v (2 ^ 31)); [reflexivity|].
    rewrite <- (Z.mod_pow2_bits_low (v - 2 ^ 32) 32 i), <- (Z.mod_pow2_bits_low v 32 i) by lia.
    f_equal. replace (v - 2 ^ 32) with (v + -1 * 2 ^ 32) by ring. apply Z.mod_add. discriminate. }
  rewrite <- B. set (w := int32 v). clearbody w.
  rewrite Z.shiftl_1_l. destruct (Z.testbit w i) eqn:E.
  - apply negb_true_iff, Z.eqb_neq. intros H. assert (X : Z.testbit (Z.land w (2 ^ i)) i = false) by (rewrite H; apply Z.testbit_0_l).
    rewrite Z.land_spec, E, Z.pow2_bits_true in X by lia. discriminate X.
  - apply negb_false_iff, Z.eqb_eq. apply Z.bits_inj'. intros j Hj. rewrite Z.land_spec, Z.bits_0.
    destruct (Z.eq_dec i j) as [<-|N]; [rewrite E; reflexivity|]. rewrite Z.pow2_bits_false by lia. apply andb_false_r.
Qed.
Lemma cpu_ok cpuid : (forall l, 0 <= fst (cpuid l) < 2 ^ 32 /\ 0 <= snd (cpuid l) < 2 ^ 32) ->
  (cpu_has_bmi2_and_adx cpuid = true <-> 7 <= fst (cpuid 0) < 2 ^ 31 /\ Z.testbit (snd (cpuid 7)) 8 = true /\ Z.testbit (snd (cpuid 7)) 19 = true).
Proof.
  intros B. unfold cpu_has_bmi2_and_adx. destruct (B 7) as [_ B7]. destruct (B 0) as [B0 _]. rewrite !int32_bit by (exact B7 || lia).
  unfold int32. destruct (Z.ltb_spec (fst (cpuid 0)) (2 ^ 31)).
  - destruct (Z.leb_spec 7 (fst (cpuid 0))); [rewrite andb_true_iff; intuition lia|split; [discriminate|lia]].
  - destruct (Z.leb_spec 7 (fst (cpuid 0) - 2 ^ 32)); [lia|split; [discriminate|lia]].
Qed.

(** * Orders *)
Lemma l_cmp_order : total_order six l_cmp.
Proof.
  split; [|split].
  - intros x y Hx Hy. rewrite l_cmp_ok by assumption. unfold fp_cmp. rewrite Z.compare_eq_iff. split; [apply six_val_inj; assumption|intros ->; reflexivity].
  - intros x y Hx Hy. rewrite !l_cmp_ok by assumption. apply Z.compare_antisym.
  - intros x y z Hx Hy Hz. rewrite !l_cmp_ok by assumption. unfold fp_cmp. rewrite !Z.compare_lt_iff. lia.
Qed.
Lemma then_order {A B} (P : A -> Prop) (Q : B -> Prop) f g : total_order P f -> total_order Q g ->
  total_order (fun x => P (fst x) /\ Q (snd x)) (fun x y => then_cmp (f (fst x) (fst y)) (g (snd x) (snd y))).
Proof.
  intros (E1 & O1 & T1) (E2 & O2 & T2). split; [|split].
  - intros [a b] [c d] [Pa Qb] [Pc Qd]. cbn [fst snd] in *. specialize (E1 a c Pa Pc). specialize (E2 b d Qb Qd).
    unfold then_cmp. destruct (f a c) eqn:F.
    + rewrite E2. rewrite (proj1 E1 eq_refl). split; [intros ->; reflexivity|intros H; injection H; auto].
    + split; [discriminate|]. intros H. injection H as H _. apply E1 in H. discriminate H.
    + split; [discriminate|]. intros H. injection H as H _. apply E1 in H. discriminate H.
  - intros [a b] [c d] [Pa Qb] [Pc Qd]. cbn [fst snd] in *. rewrite (O1 a c), (O2 b d) by assumption. unfold then_cmp. destruct (f a c); reflexivity.
  - intros [a b] [c d] [e h] [Pa Qb] [Pc Qd] [Pe Qh]. cbn [fst snd] in *. unfold then_cmp.
    destruct (f a c) eqn:F1; try discriminate; destruct (f c e) eqn:F2; try discriminate; intros G1 G2.
    + apply E1 in F1; [|assumption..]. apply E1 in F2; [|assumption..]. subst. rewrite (proj2 (E1 e e Pe Pe) eq_refl). exact (T2 _ _ _ Qb Qd Qh G1 G2).
    + apply E1 in F1; [|assumption..]. subst. rewrite F2. reflexivity.
    + apply E1 in F2; [|assumption..]. subst. rewrite F1. reflexivity.
    + rewrite (T1 _ _ _ Pa Pc Pe F1 F2). reflexivity.
Qed.
Definition six2 (x : list Z * list Z) : Prop := six (fst x) /\ six (snd x).
Lemma l2_cmp_order : total_order six2 l2_cmp.
Proof. exact (then_order six six l_cmp l_cmp l_cmp_order l_cmp_order). Qed.
Lemma j_cmp_order {T} (P : T -> Prop) cmp : total_order P cmp -> total_order (all3 P) (j_cmp cmp).
Proof.
  intros H. pose proof (then_order _ _ _ _ H (then_order _ _ _ _ H H)) as (E & O & Tr). split; [|split].
  - intros [[x y] z] [[x' y'] z'] A B. specialize (E (x, (y, z)) (x', (y', z')) A B). cbn [fst snd] in E. unfold j_cmp. rewrite E.
    split; intros X; injection X as -> -> ->; reflexivity.
  - intros [[x y] z] [[x' y'] z'] A B. exact (O (x, (y, z)) (x', (y', z')) A B).
  - intros [[x y] z] [[x' y'] z'] [[x2 y2] z2] A B C. exact (Tr (x, (y, z)) (x', (y', z')) (x2, (y2, z2)) A B C).
Qed.

(** * Two representations of one point *)
From Verif Require Import FieldProof TowerProof FpProof2 TowerRefine ModelTower ModelCurve.
Add Ring Fp_ringL : F_ring.
Lemma neg_neq z : canon z -> z <> 0 -> fp_neg z <> z.
Proof.
  intros [C1 C2] N E. unfold fp_neg, fp_rawneg in E. destruct (Z.eqb_spec z 0); [contradiction|].
  pose proof R_M; rewrite Z.mod_small in E by lia. assert (X : MODULUS = 2 * z) by lia.
  apply (f_equal Z.odd) in X. rewrite Z.odd_mul in X. discriminate X.
Qed.
Lemma g1_other x y z : canon x -> canon y -> canon z -> z <> 0 ->
  j_equal fp_ops (mkJ x y z) (mkJ x (fp_neg y) (fp_neg z)) = true /\ fp_neg z <> z.
Proof.
  intros Cx Cy Cz N. split; [|apply neg_neq; assumption].
  assert (N' : fp_neg z <> 0).
  { intros E. apply N. apply dec_inj; auto with canon. rewrite dec_0. assert (D : dec (fp_neg z) = F0) by (rewrite E; apply dec_0).
    rewrite dec_neg in D by auto with canon. transitivity (Fopp (Fopp (dec z))); [ring|]. rewrite D. ring. }
  unfold j_equal, j_isZero. cbn [jx jy jz fp_ops f_isZero f_sqr f_mul f_eq]. unfold fp_isZero.
  destruct (Z.eqb_spec z 0); [contradiction|]. destruct (Z.eqb_spec (fp_neg z) 0); [contradiction|]. cbv zeta.
  rewrite !equal_ok by auto 20 with canon. autorewrite with dec. apply andb_true_iff. split; apply Feqb_eq; ring.
Qed.

Lemma inverse_check x y : canon x -> x <> 0 -> y = fp_inverse x -> fp_mul x y = R1.
Proof.
  intros C N ->. destruct (fp_inverse_opt_ok x C) as (z & I & Cz & D). unfold fp_inverse. rewrite I.
  apply dec_inj; [apply canon_mul; assumption|exact canon_R1|]. rewrite dec_mul, dec_R1, D by assumption.
  rewrite (Ring_theory.Rmul_comm FieldProof.F_ring). apply FieldProof.Finv_l. intros Z0. rewrite <- dec_0 in Z0.
  apply dec_inj in Z0; [exact (N Z0)|exact C|exact canon_0].
Qed.
