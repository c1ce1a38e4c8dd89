(** The array-level routines of ModelMem.v stay inside their arrays and return what the other model files say: scalars, exponentiation, weightedSum. *)
From Coq Require Import ZArith List Bool Lia.
From Verif Require Import ModelWord ModelScalar ModelDiv ModelCurve ModelMem.
Import ListNotations.
Local Open Scope Z_scope.

(** ** arrays *)
Lemma rd_mid {A} (pre post : list A) x i : i = Z.of_nat (length pre) -> rd (pre ++ x :: post) i = Some x.
Proof.
  intros ->. unfold rd. destruct (Z.ltb_spec (Z.of_nat (length pre)) 0); [lia|]. rewrite Nat2Z.id, nth_error_app2, Nat.sub_diag by lia. reflexivity.
Qed.
Lemma skipn_pre {A} (pre post : list A) n : n = length pre -> skipn n (pre ++ post) = post.
Proof. intros ->. rewrite skipn_app, skipn_all, Nat.sub_diag. reflexivity. Qed.
Lemma firstn_pre {A} (pre post : list A) n : n = length pre -> firstn n (pre ++ post) = pre.
Proof. intros ->. rewrite firstn_app, firstn_all, Nat.sub_diag. cbn [firstn]. apply app_nil_r. Qed.
Lemma wr_range_mid {A} (pre w w' post : list A) i : i = Z.of_nat (length pre) -> length w' = length w ->
  wr_range (pre ++ w ++ post) i w' = Some (pre ++ w' ++ post).
Proof.
  intros -> L. unfold wr_range. rewrite !app_length.
  destruct (Z.leb_spec 0 (Z.of_nat (length pre))); [|lia].
  destruct (Z.leb_spec (Z.of_nat (length pre) + Z.of_nat (length w')) (Z.of_nat (length pre + (length w + length post)))); [|lia].
  cbn [andb]. unfold patch. rewrite Nat2Z.id, firstn_pre by reflexivity. do 2 f_equal. f_equal.
  rewrite app_assoc, skipn_pre; [reflexivity|]. rewrite app_length. lia.
Qed.
Lemma wr_mid {A} (pre post : list A) x v i : i = Z.of_nat (length pre) -> wr (pre ++ x :: post) i v = Some (pre ++ v :: post).
Proof. intros E. exact (wr_range_mid pre [x] [v] post i E eq_refl). Qed.
Lemma rd_range_mid {A} (pre w post : list A) i n : i = Z.of_nat (length pre) -> n = Z.of_nat (length w) -> rd_range (pre ++ w ++ post) i n = Some w.
Proof.
  intros -> ->. unfold rd_range. rewrite !app_length.
  destruct (Z.leb_spec 0 (Z.of_nat (length pre))); [|lia]. destruct (Z.leb_spec 0 (Z.of_nat (length w))); [|lia].
  destruct (Z.leb_spec (Z.of_nat (length pre) + Z.of_nat (length w)) (Z.of_nat (length pre + (length w + length post)))); [|lia].
  cbn [andb]. rewrite !Nat2Z.id, skipn_pre, firstn_pre by reflexivity. reflexivity.
Qed.
Lemma rd_range_all {A} (l : list A) n : n = Z.of_nat (length l) -> rd_range l 0 n = Some l.
Proof. intros E. pose proof (rd_range_mid [] l [] 0 n eq_refl E) as H. rewrite app_nil_r in H. exact H. Qed.
Lemma rd_nth {A} (l : list A) i d : 0 <= i < Z.of_nat (length l) -> rd l i = Some (nth (Z.to_nat i) l d).
Proof.
  intros Hi. unfold rd. destruct (Z.ltb_spec i 0); [lia|]. apply nth_error_nth'. lia.
Qed.
Lemma rd_limb l i : 0 <= i < Z.of_nat (length l) -> rd l i = Some (limb l (Z.to_nat i)).
Proof. apply rd_nth. Qed.
Lemma split_at {A} (l : list A) i : (i < length l)%nat -> exists pre x post, l = pre ++ x :: post /\ length pre = i.
Proof.
  intros Hi. exists (firstn i l). destruct (skipn i l) as [|x post] eqn:E.
  - apply (f_equal (@length A)) in E. rewrite skipn_length in E. cbn [length] in E. lia.
  - exists x, post. split; [rewrite <- E; symmetry; apply firstn_skipn|]. apply firstn_length_le. lia.
Qed.

(** ** loops *)
Lemma for_up_fill {A} (f : nat -> A) body base : forall n k pre (w post : list A), Z.of_nat (length pre) = base + Z.of_nat k -> length w = n ->
  (forall j l, (k <= j < k + n)%nat -> body (Z.of_nat j) l = wr l (base + Z.of_nat j) (f j)) ->
  for_up n (Z.of_nat k) body (pre ++ w ++ post) = Some (pre ++ map f (seq k n) ++ post).
Proof.
  induction n as [|n IH]; intros k pre w post Lp Lw Hb; destruct w as [|x w]; cbn [length] in Lw; try discriminate.
  - reflexivity.
  - cbn [for_up seq map app]. rewrite Hb by lia. rewrite wr_mid by lia.
    replace (Z.of_nat k + 1) with (Z.of_nat (S k)) by lia.
    change (pre ++ f k :: w ++ post) with (pre ++ [f k] ++ w ++ post). rewrite app_assoc.
    rewrite IH; [|rewrite app_length; cbn [length]; lia|lia|intros; apply Hb; lia]. rewrite <- app_assoc. reflexivity.
Qed.
Lemma for_up_fill0 {A} (f : nat -> A) body (l : list A) n : length l = n ->
  (forall j l', (j < n)%nat -> body (Z.of_nat j) l' = wr l' (Z.of_nat j) (f j)) -> for_up n 0 body l = Some (map f (seq 0 n)).
Proof.
  intros L Hb. pose proof (for_up_fill f body 0 n 0 [] l [] eq_refl L) as H. cbn [app] in H. rewrite !app_nil_r in H. apply H. intros; apply Hb; lia.
Qed.
Lemma for_up_blocks {A} (f : nat -> list A) m body : (forall j, length (f j) = m) -> forall n k pre (w post : list A), length pre = (k * m)%nat -> length w = (n * m)%nat ->
  (forall j p x q, (k <= j < k + n)%nat -> length p = (j * m)%nat -> length x = m -> body (Z.of_nat j) (p ++ x ++ q) = Some (p ++ f j ++ q)) ->
  for_up n (Z.of_nat k) body (pre ++ w ++ post) = Some (pre ++ flat_map f (seq k n) ++ post).
Proof.
  intros Hf. induction n as [|n IH]; intros k pre w post Lp Lw Hb.
  - destruct w; [reflexivity|discriminate].
  - cbn [for_up seq flat_map]. rewrite <- (firstn_skipn m w) at 1. rewrite <- !app_assoc. rewrite Hb; [|lia|exact Lp|rewrite firstn_length; lia].
    replace (Z.of_nat k + 1) with (Z.of_nat (S k)) by lia. rewrite (app_assoc pre (f k)).
    rewrite IH; [|rewrite app_length, Hf; lia|rewrite skipn_length; lia|intros; apply Hb; auto; lia]. rewrite <- !app_assoc. reflexivity.
Qed.
Lemma for_up_fold {S} (g : S -> nat -> S) body : forall n k s, (forall j s, (k <= j < k + n)%nat -> body (Z.of_nat j) s = Some (g s j)) ->
  for_up n (Z.of_nat k) body s = Some (fold_left g (seq k n) s).
Proof.
  induction n as [|n IH]; intros k s Hb; [reflexivity|]. cbn [for_up seq fold_left]. rewrite Hb by lia.
  replace (Z.of_nat k + 1) with (Z.of_nat (Datatypes.S k)) by lia. apply IH. intros; apply Hb; lia.
Qed.

(** ** bytes and limbs *)
Lemma flat_map_seq {A B} (f : A -> list B) d l : flat_map f l = flat_map (fun i => f (nth i l d)) (seq 0 (length l)).
Proof.
  induction l as [|x l IH]; [reflexivity|]. cbn [length seq flat_map nth]. f_equal. rewrite IH.
  rewrite <- (seq_shift (length l) 0), !flat_map_concat_map, map_map. reflexivity.
Qed.
Lemma c_toBytesLE_ok inp out : length out = (8 * length inp)%nat -> c_toBytesLE inp out = Some (toBytesLE inp).
Proof.
  intros L. unfold c_toBytesLE, toBytesLE. rewrite (flat_map_seq _ 0).
  pose proof (for_up_blocks (fun i => word_bytes_le (nth i inp 0)) 8
    (fun i => for_up 8 0 (fun j out => w <- rd inp i ;; wr out (i * 8 + j) ((w / 2 ^ (8 * j)) mod 256)))) as B.
  specialize (B (fun _ => eq_refl) (length inp) 0%nat [] out []). rewrite !app_nil_r in B. apply B; [reflexivity|lia|]. clear B.
  intros j p x q Hj Lp Lx. cbv beta.
  change (word_bytes_le (nth j inp 0)) with (map (fun i => (nth j inp 0 / 2 ^ (8 * Z.of_nat i)) mod 256) (seq 0 8)).
  apply (for_up_fill _ _ (Z.of_nat j * 8) 8 0); [lia|exact Lx|]. intros i l Hi. cbv beta. rewrite (rd_nth inp (Z.of_nat j) 0), Nat2Z.id by lia. reflexivity.
Qed.
Lemma c_toBytesBE_ok inp out : length out = (8 * length inp)%nat -> c_toBytesBE inp out = Some (toBytesBE inp).
Proof.
  intros L. unfold c_toBytesBE, toBytesBE. rewrite (flat_map_seq _ 0), rev_length.
  pose proof (for_up_blocks (fun i => map (fun k => (nth i (rev inp) 0 / 2 ^ k) mod 256) [56; 48; 40; 32; 24; 16; 8; 0]) 8
    (fun i => for_up 8 0 (fun j out => w <- rd inp (Z.of_nat (length inp) - 1 - i) ;; wr out (i * 8 + j) ((w / 2 ^ (56 - 8 * j)) mod 256)))) as B.
  specialize (B (fun _ => eq_refl) (length inp) 0%nat [] out []). rewrite !app_nil_r in B. apply B; [reflexivity|lia|]. clear B.
  intros j p x q Hj Lp Lx. cbv beta.
  change (map (fun k => (nth j (rev inp) 0 / 2 ^ k) mod 256) [56; 48; 40; 32; 24; 16; 8; 0])
    with (map (fun i => (nth j (rev inp) 0 / 2 ^ (56 - 8 * Z.of_nat i)) mod 256) (seq 0 8)).
  apply (for_up_fill _ _ (Z.of_nat j * 8) 8 0); [lia|exact Lx|]. intros i l Hi. cbv beta.
  rewrite (rd_nth inp _ 0) by lia. rewrite rev_nth by lia. do 4 f_equal. f_equal. lia.
Qed.
Lemma c_word_ok b pos g : (forall j, (j < 8)%nat -> rd b (pos (Z.of_nat j)) = Some (g j)) ->
  c_word b pos = Some (fold_left Z.lor (map (fun j => Z.shiftl (g j) (8 * Z.of_nat j)) (seq 0 8)) 0).
Proof.
  intros Hg. unfold c_word.
  rewrite (for_up_fold (fun acc j => Z.lor acc (Z.shiftl (g j) (8 * Z.of_nat j))) _ 8 0 0); [reflexivity|].
  intros j s Hj. cbv beta. rewrite Hg by lia. reflexivity.
Qed.
Lemma c_fromBytesLE_ok b out : length b = (8 * length out)%nat -> c_fromBytesLE b out = Some (fromBytesLE (length out) b).
Proof.
  intros L. unfold c_fromBytesLE, fromBytesLE. apply for_up_fill0; [reflexivity|]. intros j l Hj. cbv beta.
  rewrite (c_word_ok b _ (fun i => nth (j * 8 + i) b 0)); [reflexivity|]. intros i Hi. rewrite (rd_nth b _ 0) by lia. do 2 f_equal. lia.
Qed.
Lemma c_fromBytesBE_ok b out : length b = (8 * length out)%nat -> c_fromBytesBE b out = Some (fromBytesBE (length out) b).
Proof.
  intros L. unfold c_fromBytesBE, fromBytesBE. apply for_up_fill0; [reflexivity|]. intros j l Hj. cbv beta.
  rewrite (c_word_ok b _ (fun i => nth (length out * 8 - j * 8 - 1 - i) b 0)); [reflexivity|]. intros i Hi. rewrite (rd_nth b _ 0) by lia. do 2 f_equal. lia.
Qed.
Lemma guarded l i : 0 <= i -> (if Z.of_nat (length l) <=? i then Some 0 else rd l i) = Some (limb l (Z.to_nat i)).
Proof.
  intros Hi. destruct (Z.leb_spec (Z.of_nat (length l)) i).
  - unfold limb. rewrite nth_overflow by lia. reflexivity.
  - apply rd_limb. lia.
Qed.
Lemma add_loop_mem a b : forall n k pre w post carry, length pre = k -> length w = n ->
  for_up n (Z.of_nat k) (fun i cc =>
      x <- (if Z.of_nat (length a) <=? i then Some 0 else rd a i) ;;
      y <- (if Z.of_nat (length b) <=? i then Some 0 else rd b i) ;;
      let (ci, carry) := Add64 x y (snd cc) in
      c <- wr (fst cc) i ci ;; Some (c, carry)) (pre ++ w ++ post, carry)
  = Some (let (l, c) := add_loop n k a b carry in (pre ++ l ++ post, c)).
Proof.
  induction n as [|n IH]; intros k pre w post carry Lp Lw; destruct w as [|x w]; cbn [length] in Lw; try discriminate.
  - reflexivity.
  - cbn [for_up add_loop]. rewrite !guarded, !Nat2Z.id by lia. cbn [snd fst].
    destruct (Add64 (limb a k) (limb b k) carry) as [ci c1]. cbn [app]. rewrite wr_mid by lia.
    replace (Z.of_nat k + 1) with (Z.of_nat (S k)) by lia.
    change (pre ++ ci :: w ++ post) with (pre ++ [ci] ++ w ++ post). rewrite app_assoc.
    rewrite IH; [|rewrite app_length; cbn [length]; lia|lia]. destruct (add_loop n (S k) a b c1) as [l c2]. rewrite <- app_assoc. reflexivity.
Qed.
Lemma add_loop_len a b : forall n k c, length (fst (add_loop n k a b c)) = n.
Proof. induction n as [|n IH]; intros k c; [reflexivity|]. cbn [add_loop]. destruct (Add64 _ _ _) as [ci c1]. specialize (IH (S k) c1). destruct (add_loop _ _ _ _ _). cbn [fst length] in *. lia. Qed.
Lemma set_nth_mid : forall i pre x post v, length pre = i -> set_nth (pre ++ x :: post) i v = pre ++ v :: post.
Proof. induction i as [|i IH]; intros pre x post v L; destruct pre as [|p pre]; try discriminate; [reflexivity|]. cbn [app set_nth]. f_equal. apply IH. cbn [length] in L. lia. Qed.
Lemma wr_set_nth l i v : 0 <= i < Z.of_nat (length l) -> wr l i v = Some (set_nth l (Z.to_nat i) v).
Proof.
  intros Hi. destruct (split_at l (Z.to_nat i)) as (pre & x & post & -> & L); [lia|]. rewrite wr_mid, set_nth_mid by lia. reflexivity.
Qed.
Lemma c_add_ok NC a b : c_add NC a b = Some (scalar_add NC a b).
Proof.
  unfold c_add, scalar_add. cbv zeta. set (N := Nat.max (length b) (length a)). destruct (Nat.ltb_spec NC N) as [|HN]; [reflexivity|].
  pose proof (add_loop_mem a b N 0 [] (repeat 0 N) (repeat 0 (NC - N)) 0 eq_refl (repeat_length _ _)) as E.
  cbn [app] in E. rewrite <- repeat_app in E. replace (N + (NC - N))%nat with NC in E by lia. change (Z.of_nat 0) with 0 in E. rewrite E. clear E.
  pose proof (add_loop_len a b N 0 0) as L. destruct (add_loop N 0 a b 0) as [l c]. cbn [fst snd] in *.
  destruct (0 <? c); [|reflexivity]. destruct (Nat.leb_spec NC (N + 1)); [reflexivity|].
  rewrite wr_set_nth by (rewrite app_length, repeat_length; lia). do 3 f_equal. lia.
Qed.
Lemma c_cmp_ok a b : forall n, (n <= length a)%nat -> (n <= length b)%nat -> c_cmp n a b = Some (cmp_loop n a b).
Proof.
  induction n as [|n IH]; intros La Lb; [reflexivity|]. cbn [c_cmp cmp_loop]. rewrite !rd_limb, Nat2Z.id by lia.
  destruct (_ <? _); [reflexivity|]. destruct (_ <? _); [reflexivity|]. apply IH; lia.
Qed.
Lemma c_equal_ok a b : length a = length b -> c_equal a b = Some (scalar_equal a b).
Proof.
  intros L. unfold c_equal, scalar_equal.
  assert (G : forall n k, (k + n <= length a)%nat -> (fix go n i := match n with
     | O => Some true
     | S n => x <- rd a i ;; y <- rd b i ;; if x =? y then go n (i + 1) else Some false
     end) n (Z.of_nat k) = Some (forallb (fun i => limb a i =? limb b i) (seq k n))).
  { induction n as [|n IH]; intros k Hk; [reflexivity|]. cbn [seq forallb]. rewrite !rd_limb, Nat2Z.id by lia.
    destruct (_ =? _); [|reflexivity]. replace (Z.of_nat k + 1) with (Z.of_nat (S k)) by lia. cbn [andb]. apply IH. lia. }
  apply (G (length a) 0%nat). lia.
Qed.
Lemma c_bitlen_ok s : forall n, (n <= length s)%nat -> c_bitlen n s = Some (bitlen_loop n s).
Proof.
  induction n as [|n IH]; intros L; [reflexivity|]. cbn [c_bitlen bitlen_loop]. rewrite rd_limb, Nat2Z.id by lia.
  destruct (_ =? _); [apply IH; lia|reflexivity].
Qed.
Lemma c_bitLength_ok s : c_bitLength s = Some (bitLength s).
Proof. apply c_bitlen_ok. lia. Qed.
Lemma shl_ok w x k : 0 <= k < w -> shl w x k = Some ((Z.shiftl x k) mod 2 ^ w).
Proof. intros H. unfold shl. destruct (Z.leb_spec 0 k); [|lia]. destruct (Z.ltb_spec k w); [reflexivity|lia]. Qed.
Lemma shr_ok w x k : 0 <= k < w -> shr w x k = Some (Z.shiftr x k).
Proof. intros H. unfold shr. destruct (Z.leb_spec 0 k); [|lia]. destruct (Z.ltb_spec k w); [reflexivity|lia]. Qed.
Lemma shl64_ok x k : 0 <= k < 64 -> shl 64 x k = Some ((Z.shiftl x k) mod W).
Proof. exact (shl_ok 64 x k). Qed.
Lemma c_rsh_ok out inp bits : 0 <= bits -> length out = length inp -> c_rsh out inp bits = Some (rsh inp bits).
Proof.
  intros Hb L. unfold c_rsh, rsh. cbv zeta. pose proof (Z.div_pos bits 64 Hb eq_refl) as Hn.
  apply for_up_fill0; [exact L|]. intros j l Hj. cbv beta. rewrite !guarded by lia.
  replace (Z.to_nat (Z.of_nat j + bits / 64)) with (j + Z.to_nat (bits / 64))%nat by lia.
  replace (Z.to_nat (Z.of_nat j + bits / 64 + 1)) with (j + Z.to_nat (bits / 64) + 1)%nat by lia.
  destruct (Z.eqb_spec (bits mod 64) 0) as [|N]; [reflexivity|]. pose proof (Z.mod_pos_bound bits 64 eq_refl). rewrite shr_ok, shl64_ok by lia. reflexivity.
Qed.
Lemma bitlen_bound s : Forall (fun w => 0 <= w < W) s -> 0 <= bitLength s <= 64 * Z.of_nat (length s).
Proof.
  intros Hs. unfold bitLength.
  assert (G : forall n, (n <= length s)%nat -> 0 <= bitlen_loop n s <= 64 * Z.of_nat n).
  { induction n as [|n IH]; intros L; [cbn; lia|]. cbn [bitlen_loop]. destruct (Z.eqb_spec (limb s n) 0) as [|N]; [specialize (IH ltac:(lia)); lia|].
    assert (Hw : 0 <= limb s n < W) by (unfold limb; rewrite Forall_forall in Hs; apply Hs, nth_In; lia).
    unfold countl_zero. pose proof (Z.log2_nonneg (limb s n)). assert (Z.log2 (limb s n) < 64) by (apply Z.log2_lt_pow2; [lia|]; apply Hw). lia. }
  apply G. lia.
Qed.
Lemma c_bit_ok s i : 0 <= i < 64 * Z.of_nat (length s) -> c_bit s i = Some (sbit s (Z.to_nat i)).
Proof.
  intros Hi. unfold c_bit, sbit. pose proof (Z.div_pos i 64 (proj1 Hi) eq_refl). assert (i / 64 < Z.of_nat (length s)) by (apply Z.div_lt_upper_bound; lia).
  rewrite rd_limb by lia. rewrite shr_ok by (apply Z.mod_pos_bound; reflexivity). do 3 f_equal. change 64%nat with (Z.to_nat 64). rewrite <- Z2Nat.inj_div, <- Z2Nat.inj_mod by lia.
  rewrite Z2Nat.id by (apply Z.mod_pos_bound; reflexivity). reflexivity.
Qed.
Lemma c_exp_ok {T} (one : T) sq mul x s : Forall (fun w => 0 <= w < W) s -> c_exp one sq mul x s = Some (gexp one sq mul x s).
Proof.
  intros Hs. unfold c_exp, gexp. rewrite c_bitLength_ok. pose proof (bitlen_bound s Hs) as B.
  assert (G : forall n z, Z.of_nat n <= 64 * Z.of_nat (length s) ->
    for_down n (fun i z => let z := sq z in b <- c_bit s i ;; Some (if b : bool then mul z x else z)) z = Some (exp_loop sq mul x s n z)).
  { induction n as [|n IH]; intros z Hn; [reflexivity|]. cbn [for_down exp_loop]. cbv zeta. rewrite c_bit_ok, Nat2Z.id by lia. apply IH. lia. }
  apply G. lia.
Qed.
Lemma c_scale_ok {T} (zero : T) dbl add x s : Forall (fun w => 0 <= w < W) s -> c_scale zero dbl add x s = Some (gscale zero dbl add x s).
Proof.
  intros Hs. unfold c_scale, gscale. rewrite c_bitLength_ok. pose proof (bitlen_bound s Hs) as B.
  assert (G : forall n k q nn, Z.of_nat (k + n) <= 64 * Z.of_nat (length s) -> exists nn',
    for_up n (Z.of_nat k) (fun i qn => b <- c_bit s i ;; Some (if b : bool then add (fst qn) (snd qn) else fst qn, dbl (snd qn))) (q, nn)
    = Some (scale_loop dbl add s n k q nn, nn')).
  { induction n as [|n IH]; intros k q nn Hn; [exists nn; reflexivity|]. cbn [for_up scale_loop]. rewrite c_bit_ok, Nat2Z.id by lia. cbn [fst snd].
    replace (Z.of_nat k + 1) with (Z.of_nat (S k)) by lia. apply IH. lia. }
  destruct (G (Z.to_nat (bitLength s)) 0%nat zero x) as [nn' E]; [lia|]. change (Z.of_nat 0) with 0 in E. rewrite E. reflexivity.
Qed.
