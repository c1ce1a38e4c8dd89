(** The array-level division of ModelMem.v stays inside its buffers and returns what ModelDiv.v says. *)
From Coq Require Import ZArith List Bool Lia.
From Verif Require Import ModelWord ModelScalar ModelPrim ModelFp ModelDiv ModelMem ScalarProof DivProof MemProof.
Import ListNotations.
Local Open Scope Z_scope.

(** ** one pass over a part of an array, carrying a word *)
Fixpoint scan (F : nat -> Z -> Z -> Z * Z) (k : nat) (xs : list Z) (c : Z) : list Z * Z :=
  match xs with
  | [] => ([], c)
  | x :: xs => let (v, c) := F k x c in let (l, c) := scan F (S k) xs c in (v :: l, c)
  end.
Lemma scan_length F : forall xs k c, length (fst (scan F k xs c)) = length xs.
Proof. induction xs as [|x xs IH]; intros k c; [reflexivity|]. cbn [scan]. destruct (F k x c) as [v c1]. specialize (IH (S k) c1). destruct (scan F (S k) xs c1). cbn [fst length] in *. lia. Qed.
Lemma sweep F (body : Z -> list Z * Z -> option (list Z * Z)) off : forall xs k pre post c, Z.of_nat (length pre) = off + Z.of_nat k ->
  (forall j ac x, (k <= j < k + length xs)%nat -> rd (fst ac) (off + Z.of_nat j) = Some x -> body (Z.of_nat j) ac = (a <- wr (fst ac) (off + Z.of_nat j) (fst (F j x (snd ac))) ;; Some (a, snd (F j x (snd ac))))) ->
  for_up (length xs) (Z.of_nat k) body (pre ++ xs ++ post, c) = Some (pre ++ fst (scan F k xs c) ++ post, snd (scan F k xs c)).
Proof.
  induction xs as [|x xs IH]; intros k pre post c Lp Hb; [reflexivity|]. cbn [length for_up scan app].
  rewrite (Hb k _ x); [|cbn [length]; lia|cbn [fst]; apply rd_mid; lia]. cbn [fst snd]. rewrite wr_mid by lia.
  destruct (F k x c) as [v c1]. cbn [fst snd]. replace (Z.of_nat k + 1) with (Z.of_nat (S k)) by lia.
  change (pre ++ v :: xs ++ post) with (pre ++ [v] ++ xs ++ post). rewrite app_assoc.
  rewrite IH; [|rewrite app_length; cbn [length]; lia|intros; apply Hb; [cbn [length]; lia|assumption]].
  destruct (scan F (S k) xs c1) as [l c2]. cbn [fst snd app]. rewrite <- app_assoc. reflexivity.
Qed.
Lemma skipn_skipn' {A} : forall y x (l : list A), skipn x (skipn y l) = skipn (y + x) l.
Proof. induction y as [|y IH]; intros x l; [reflexivity|]. destruct l as [|h l]; [rewrite !skipn_nil; reflexivity|]. cbn [skipn plus]. apply IH. Qed.
Lemma win_split (a : list Z) k n : (k + n <= length a)%nat -> a = firstn k a ++ win a k n ++ skipn (k + n) a.
Proof.
  intros H. unfold win. rewrite <- (firstn_skipn k a) at 1. f_equal. rewrite <- (firstn_skipn n (skipn k a)) at 1. f_equal.
  apply skipn_skipn'.
Qed.
Lemma win_length (a : list Z) k n : (k + n <= length a)%nat -> length (win a k n) = n.
Proof. intros H. unfold win. rewrite firstn_length, skipn_length. lia. Qed.
Lemma sweep_win F body a ta k n c : (k + n <= length a)%nat ->
  (forall j ac x, (j < n)%nat -> rd (fst ac) (Z.of_nat k + Z.of_nat j) = Some x -> body (Z.of_nat j) ac = (a <- wr (fst ac) (Z.of_nat k + Z.of_nat j) (fst (F j x (snd ac))) ;; Some (a, snd (F j x (snd ac))))) ->
  for_up n 0 body (a ++ ta, c) = Some (splice a k (fst (scan F 0 (win a k n) c)) ++ ta, snd (scan F 0 (win a k n) c)).
Proof.
  intros H Hb. pose proof (win_length a k n H) as L. rewrite (win_split a k n H) at 1. rewrite <- !app_assoc.
  rewrite <- L at 1. change 0 with (Z.of_nat 0) at 1. rewrite (sweep F body (Z.of_nat k)); [|rewrite firstn_length; lia|rewrite L; intros; apply Hb; [lia|assumption]].
  unfold splice. rewrite scan_length, L. rewrite <- !app_assoc. reflexivity.
Qed.
Lemma win_all (a : list Z) : win a 0 (length a) = a.
Proof. unfold win. cbn [skipn]. apply firstn_all. Qed.
Lemma splice_all (a w : list Z) : length w = length a -> splice a 0 w = w.
Proof. intros L. unfold splice. cbn [firstn app]. rewrite L. cbn [plus]. rewrite skipn_all, app_nil_r. reflexivity. Qed.
Lemma nth_pre (pre post : list Z) y i : i = length pre -> limb (pre ++ y :: post) i = y.
Proof. intros ->. unfold limb. apply nth_middle. Qed.

(** ** the passes *)
Definition F_lshb bits (_ : nat) x c := (Z.lor ((Z.shiftl x bits) mod W) c, Z.land (Z.shiftr x (64 - bits)) (RLC_MASK bits)).
Lemma scan_lshb bits : forall a k c, scan (F_lshb bits) k a c = lshb_loop a bits c.
Proof. induction a as [|x a IH]; intros k c; [reflexivity|]. cbn [scan lshb_loop]. unfold F_lshb at 1. rewrite IH. destruct (lshb_loop _ _ _). reflexivity. Qed.
Lemma c_lshb_ok a ta bits : 0 < bits < 64 -> c_lshb (a ++ ta) (length a) bits = Some (fst (bn_lshb_low a bits) ++ ta, snd (bn_lshb_low a bits)).
Proof.
  intros Hbits. unfold c_lshb, bn_lshb_low. rewrite (sweep_win (F_lshb bits) _ a ta 0 (length a)); [|lia|].
  - rewrite win_all, splice_all, scan_lshb by apply scan_length. reflexivity.
  - intros j ac x Hj R. cbn [Z.of_nat Z.add] in *. rewrite R, shr_ok, shl64_ok by lia. reflexivity.
Qed.
Definition F_subn (b : list Z) (i : nat) x c :=
  let y := limb b i in let diff := (x - y) mod W in
  ((diff - c) mod W, if (x <? y) || (negb (c =? 0) && (diff =? 0)) then 1 else 0).
Lemma scan_subn B : forall a pre b post c, B = pre ++ b ++ post -> length a = length b -> scan (F_subn B) (length pre) a c = subn_loop a b c.
Proof.
  induction a as [|x a IH]; intros pre b post c E L; destruct b as [|y b]; try discriminate; [reflexivity|].
  cbn [scan subn_loop]. unfold F_subn at 1. cbn [app] in E. rewrite E, nth_pre by reflexivity. rewrite <- E. cbv zeta.
  rewrite <- (IH (pre ++ [y]) b post); [|rewrite <- app_assoc; exact E|cbn [length] in L; lia].
  rewrite app_length. cbn [length]. rewrite Nat.add_1_r. destruct (scan _ _ _ _). reflexivity.
Qed.
Lemma c_subn_ok a ta b tb k n : n = length b -> (k + n <= length a)%nat ->
  c_subn (a ++ ta) (Z.of_nat k) (b ++ tb) n = Some (splice a k (fst (bn_subn_low (win a k n) b)) ++ ta, snd (bn_subn_low (win a k n) b)).
Proof.
  intros -> H. unfold c_subn, bn_subn_low. rewrite (sweep_win (F_subn (b ++ tb)) _ a ta k (length b)); [|exact H|].
  - rewrite (scan_subn (b ++ tb) _ [] b tb) by (rewrite ?win_length; auto). reflexivity.
  - intros j ac x Hj R. rewrite R. rewrite rd_limb, Nat2Z.id by (rewrite app_length; lia). reflexivity.
Qed.
Definition F_addn (b : list Z) (i : nat) x c :=
  let y := limb b i in let r0 := (x + y) mod W in let r1 := (r0 + c) mod W in
  (r1, Z.lor (if r0 <? x then 1 else 0) (if r1 <? r0 then 1 else 0)).
Lemma scan_addn B : forall a pre b post c, B = pre ++ b ++ post -> length a = length b -> scan (F_addn B) (length pre) a c = addn_loop a b c.
Proof.
  induction a as [|x a IH]; intros pre b post c E L; destruct b as [|y b]; try discriminate; [reflexivity|].
  cbn [scan addn_loop]. unfold F_addn at 1. cbn [app] in E. rewrite E, nth_pre by reflexivity. rewrite <- E. cbv zeta.
  rewrite <- (IH (pre ++ [y]) b post); [|rewrite <- app_assoc; exact E|cbn [length] in L; lia].
  rewrite app_length. cbn [length]. rewrite Nat.add_1_r. destruct (scan _ _ _ _). reflexivity.
Qed.
Lemma c_addn_ok a ta b tb k n : n = length b -> (k + n <= length a)%nat ->
  c_addn (a ++ ta) (Z.of_nat k) (b ++ tb) n = Some (splice a k (fst (bn_addn_low (win a k n) b)) ++ ta, snd (bn_addn_low (win a k n) b)).
Proof.
  intros -> H. unfold c_addn, bn_addn_low. rewrite (sweep_win (F_addn (b ++ tb)) _ a ta k (length b)); [|exact H|].
  - rewrite (scan_addn (b ++ tb) _ [] b tb) by (rewrite ?win_length; auto). reflexivity.
  - intros j ac x Hj R. rewrite R. rewrite rd_limb, Nat2Z.id by (rewrite app_length; lia). reflexivity.
Qed.
Definition F_sub1 (_ : nat) x c := if c =? 0 then (x, 0) else let r0 := (x - c) mod W in (r0, if x <? r0 then 1 else 0).
Lemma scan_sub1 : forall a k c, scan F_sub1 k a c = bn_sub1_low a c.
Proof.
  assert (Z0 : forall a k, scan F_sub1 k a 0 = (a, 0)) by (induction a as [|x a IH]; intros k; [reflexivity|]; cbn [scan]; unfold F_sub1 at 1; cbn [Z.eqb]; rewrite IH; reflexivity).
  induction a as [|x a IH]; intros k c; [reflexivity|]. cbn [scan bn_sub1_low]. unfold F_sub1 at 1. destruct (c =? 0); [rewrite Z0; reflexivity|].
  cbv zeta. rewrite IH. destruct (bn_sub1_low _ _). reflexivity.
Qed.
Lemma c_sub1_ok a ta k n c : (k + n <= length a)%nat ->
  c_sub1 (a ++ ta) (Z.of_nat k) c n = Some (splice a k (fst (bn_sub1_low (win a k n) c)) ++ ta, snd (bn_sub1_low (win a k n) c)).
Proof.
  intros H. unfold c_sub1. rewrite (sweep_win F_sub1 _ a ta k n); [|exact H|].
  - rewrite scan_sub1. reflexivity.
  - intros j ac x Hj R. rewrite R. unfold F_sub1. destruct (snd ac =? 0); reflexivity.
Qed.
Definition F_add1 (_ : nat) x c := if c =? 0 then (x, 0) else let r0 := (x + c) mod W in (r0, if r0 <? c then 1 else 0).
Lemma scan_add1 : forall a k c, scan F_add1 k a c = bn_add1_low a c.
Proof.
  assert (Z0 : forall a k, scan F_add1 k a 0 = (a, 0)) by (induction a as [|x a IH]; intros k; [reflexivity|]; cbn [scan]; unfold F_add1 at 1; cbn [Z.eqb]; rewrite IH; reflexivity).
  induction a as [|x a IH]; intros k c; [reflexivity|]. cbn [scan bn_add1_low]. unfold F_add1 at 1. destruct (c =? 0); [rewrite Z0; reflexivity|].
  cbv zeta. rewrite IH. destruct (bn_add1_low _ _). reflexivity.
Qed.
Lemma c_add1_ok a ta k n c : (k + n <= length a)%nat ->
  c_add1 (a ++ ta) (Z.of_nat k) c n = Some (splice a k (fst (bn_add1_low (win a k n) c)) ++ ta, snd (bn_add1_low (win a k n) c)).
Proof.
  intros H. unfold c_add1. rewrite (sweep_win F_add1 _ a ta k n); [|exact H|].
  - rewrite scan_add1. reflexivity.
  - intros j ac x Hj R. rewrite R. unfold F_add1. destruct (snd ac =? 0); reflexivity.
Qed.
Definition F_mul1 digit (_ : nat) x c :=
  let v := ((x * digit) mod W + c) mod W in (v, ((x * digit) / W + (if v <? c then 1 else 0)) mod W).
Lemma scan_mul1 digit : forall a k c, scan (F_mul1 digit) k a c = mul1_loop a digit c.
Proof. induction a as [|x a IH]; intros k c; [reflexivity|]. cbn [scan mul1_loop]. unfold F_mul1 at 1. cbv zeta. rewrite IH. destruct (mul1_loop _ _ _). reflexivity. Qed.
Lemma c_mul1_inplace_ok a ta digit n : n = length a ->
  c_mul1_inplace (a ++ ta) digit n = Some (fst (bn_mul1_low a digit) ++ ta, snd (bn_mul1_low a digit)).
Proof.
  intros ->. unfold c_mul1_inplace, bn_mul1_low. rewrite (sweep_win (F_mul1 digit) _ a ta 0 (length a)); [|lia|].
  - rewrite win_all, splice_all, scan_mul1 by apply scan_length. reflexivity.
  - intros j ac x Hj R. cbn [Z.of_nat Z.add] in *. rewrite R. reflexivity.
Qed.
Lemma mul1_length digit : forall a c, length (fst (mul1_loop a digit c)) = length a.
Proof. intros a c. rewrite <- (scan_mul1 digit a 0). apply scan_length. Qed.
Lemma c_mul1_ok c a ta digit n : n = length a -> (n <= length c)%nat ->
  c_mul1 c (a ++ ta) digit n = Some (fst (bn_mul1_low a digit) ++ skipn n c, snd (bn_mul1_low a digit)).
Proof.
  intros -> L. unfold c_mul1, bn_mul1_low.
  assert (G : forall xs pre w k cpre post cy, a = pre ++ xs -> length pre = k -> length cpre = k -> length w = length xs ->
    for_up (length xs) (Z.of_nat k) (fun i cc => x <- rd (a ++ ta) i ;;
    let r1 := (x * digit) / W in
    let r0 := (x * digit) mod W in
    let v := (r0 + snd cc) mod W in
    c <- wr (fst cc) i v ;; Some (c, (r1 + (if v <? snd cc then 1 else 0)) mod W)) (cpre ++ w ++ post, cy)
    = Some (cpre ++ fst (mul1_loop xs digit cy) ++ post, snd (mul1_loop xs digit cy))).
  { induction xs as [|x xs IH]; intros pre w k cpre post cy E Lp Lc Lw; destruct w as [|y w]; try discriminate; [reflexivity|].
    cbn [length for_up mul1_loop app fst snd]. rewrite E at 1. rewrite <- app_assoc. cbn [app]. rewrite rd_mid by lia. cbv zeta. rewrite wr_mid by lia.
    match goal with |- context [cpre ++ ?v :: w ++ post] => change (cpre ++ v :: w ++ post) with (cpre ++ [v] ++ w ++ post); set (v0 := v) end.
    rewrite app_assoc. replace (Z.of_nat k + 1) with (Z.of_nat (S k)) by lia.
    rewrite (IH (pre ++ [x])); [|rewrite <- app_assoc; exact E|rewrite app_length; cbn [length]; lia|rewrite app_length; cbn [length]; lia|cbn [length] in Lw; lia].
    destruct (mul1_loop xs digit _) as [l c2]. cbn [fst snd app]. rewrite <- app_assoc. reflexivity. }
  specialize (G a [] (firstn (length a) c) 0%nat [] (skipn (length a) c) 0 eq_refl eq_refl eq_refl). cbn [app] in G.
  rewrite firstn_skipn in G. apply G. rewrite firstn_length. lia.
Qed.
Lemma c_dvcmp_ok A B n : (n <= length A)%nat -> (n <= length B)%nat -> c_dvcmp A B n = Some (cmp_loop n A B).
Proof.
  intros HA HB. unfold c_dvcmp. set (body := fun i r => _).
  assert (S : forall n r, (n <= length A)%nat -> (n <= length B)%nat -> r <> Eq -> for_down n body r = Some r).
  { induction n0 as [|m IH]; intros r LA LB N; [reflexivity|]. cbn [for_down]. unfold body at 1. rewrite !rd_limb by lia. destruct r; [exfalso; apply N; reflexivity| |]; apply IH; auto; lia. }
  revert HA HB. induction n as [|m IH]; intros HA HB; [reflexivity|]. cbn [for_down cmp_loop]. unfold body at 1. rewrite !rd_limb, Nat2Z.id by lia.
  destruct (Z.eqb_spec (limb A m) (limb B m)) as [E|E].
  - rewrite E, Z.ltb_irrefl. apply IH; lia.
  - destruct (Z.ltb_spec (limb B m) (limb A m)); destruct (Z.ltb_spec (limb A m) (limb B m)); try lia; apply S; try lia; discriminate.
Qed.
Lemma limb_app a ta i : (i < length a)%nat -> limb (a ++ ta) i = limb a i.
Proof. intros. unfold limb. apply app_nth1. assumption. Qed.
Lemma cmp_loop_app a ta b tb : forall n, (n <= length a)%nat -> (n <= length b)%nat -> cmp_loop n (a ++ ta) (b ++ tb) = cmp_loop n a b.
Proof. induction n as [|n IH]; intros; [reflexivity|]. cbn [cmp_loop]. rewrite !limb_app, IH by lia. reflexivity. Qed.
Lemma c_lshd_ok b tb m : (m <= length tb)%nat -> c_lshd (b ++ tb) (Z.of_nat (length b) + Z.of_nat m) (Z.of_nat m) = Some (dv_lshd b m ++ skipn m tb).
Proof.
  intros Hm. unfold c_lshd, dv_lshd. replace (Z.to_nat (Z.of_nat (length b) + Z.of_nat m - Z.of_nat m)) with (length b) by lia. rewrite Nat2Z.id.
  rewrite <- (firstn_skipn m tb) at 1. set (post0 := skipn m tb). set (sz := Z.of_nat (length b) + Z.of_nat m).
  assert (G : forall (bl : list Z) k (t1 post : list Z), length t1 = m -> sz - 1 - Z.of_nat k = Z.of_nat (length bl) + Z.of_nat m - 1 -> exists X : list Z, length X = m /\
    for_up (length bl) (Z.of_nat k) (fun i b => x <- rd b (sz - 1 - Z.of_nat m - i) ;; wr b (sz - 1 - i) x) (bl ++ t1 ++ post) = Some (X ++ bl ++ post)).
  { induction bl as [|x bl IH] using rev_ind; intros k t1 post Lt Hk; [exists t1; split; [exact Lt|reflexivity]|].
    rewrite app_length in *. cbn [length] in *. rewrite Nat.add_1_r. cbn [for_up]. rewrite <- !app_assoc. cbn [app]. rewrite rd_mid by lia.
    assert (exists t2 y, x :: t1 = t2 ++ [y] /\ length t2 = m) as (t2 & y & E & L2).
    { exists (removelast (x :: t1)), (last (x :: t1) 0). split; [apply app_removelast_last; discriminate|].
      pose proof (app_removelast_last 0 (l := x :: t1) ltac:(discriminate)) as E. apply (f_equal (@length Z)) in E. rewrite app_length in E. cbn [length] in E. rewrite Nat.add_1_r in E. lia. }
    change (bl ++ x :: t1 ++ post) with (bl ++ (x :: t1) ++ post). rewrite E, <- app_assoc, (app_assoc bl t2). cbn [app].
    rewrite wr_mid by (rewrite app_length; lia). rewrite <- app_assoc. replace (Z.of_nat k + 1) with (Z.of_nat (S k)) by lia.
    destruct (IH (S k) t2 (x :: post) L2) as (X & LX & ->); [lia|]. exists X. split; [exact LX|reflexivity]. }
  destruct (G b 0%nat (firstn m tb) post0) as (X & LX & E); [rewrite firstn_length; lia|lia|]. change (Z.of_nat 0) with 0 in E. rewrite E. clear E G.
  pose proof (for_up_fill (fun _ => 0) (fun i b => wr b i 0) 0 m 0 [] X (b ++ post0) eq_refl LX (fun _ _ _ => eq_refl)) as E.
  change (Z.of_nat 0) with 0 in E. cbn [app] in E. rewrite E. f_equal. rewrite <- app_assoc. f_equal.
  clear. generalize 0%nat. induction m as [|m IH]; intros k; [reflexivity|]. cbn [seq map repeat]. f_equal. apply IH.
Qed.
Lemma c_rshd_ok b z post m : length z = m -> exists Y : list Z, length Y = m /\ c_rshd (z ++ b ++ post) (Z.of_nat (length b) + Z.of_nat m) (Z.of_nat m) = Some (b ++ Y ++ post).
Proof.
  intros Hm. unfold c_rshd. replace (Z.of_nat (length b) + Z.of_nat m - Z.of_nat m) with (Z.of_nat (length b)) by lia. rewrite Nat2Z.id.
  assert (G : forall (bl : list Z) k (pre X : list Z), length X = m -> length pre = k -> exists Y : list Z, length Y = m /\
    for_up (length bl) (Z.of_nat k) (fun i b => x <- rd b (Z.of_nat m + i) ;; wr b i x) (pre ++ X ++ bl ++ post) = Some (pre ++ bl ++ Y ++ post)).
  { induction bl as [|x bl IH]; intros k pre X LX Lp; [exists X; split; [exact LX|reflexivity]|].
    cbn [length for_up]. cbn [app]. rewrite app_assoc, rd_mid by (rewrite app_length; lia). rewrite <- app_assoc.
    assert (exists y X', X ++ [x] = y :: X' /\ length X' = m) as (y & X' & E & L2).
    { destruct X as [|y X]; [exists x, []; split; [reflexivity|exact LX]|exists y, (X ++ [x]); split; [reflexivity|]]. rewrite app_length. cbn [length] in *. lia. }
    change (X ++ x :: bl ++ post) with (X ++ [x] ++ bl ++ post). rewrite (app_assoc X), E. cbn [app]. rewrite wr_mid by lia.
    change (pre ++ x :: X' ++ bl ++ post) with (pre ++ [x] ++ X' ++ bl ++ post). rewrite (app_assoc pre).
    replace (Z.of_nat k + 1) with (Z.of_nat (S k)) by lia. destruct (IH (S k) (pre ++ [x]) X' L2) as (Y & LY & ->); [rewrite app_length; cbn [length]; lia|].
    exists Y. split; [exact LY|]. rewrite <- app_assoc. reflexivity. }
  destruct (G b 0%nat [] z Hm eq_refl) as (Y & LY & E). cbn [app] in E. change (Z.of_nat 0) with 0 in E. rewrite E. clear E G.
  rewrite Z.max_r by lia. replace (Z.to_nat (Z.of_nat (length b) + Z.of_nat m - Z.of_nat (length b))) with m by lia.
  exists (map (fun _ => 0) (seq (length b) m)). split; [rewrite map_length, seq_length; reflexivity|].
  apply (for_up_fill (fun _ => 0) _ 0 m (length b) b Y post); [lia|exact LY|reflexivity].
Qed.
Lemma c_rshb_ok c a n bits : 0 <= bits < 64 -> (n <= length a)%nat -> (n <= length c)%nat ->
  exists cy, c_rshb c a n bits = Some (fst (bn_rshb_low (firstn n a) bits) ++ skipn n c, cy).
Proof.
  intros Hbits La Lc. unfold c_rshb.
  pose (R := fix R (a : list Z) (c0 : Z) : list Z * Z := match a with [] => ([], c0) | x :: a => let (l, carry) := R a c0 in
      (Z.lor (Z.shiftr x bits) ((Z.shiftl carry ((64 - bits) mod 64)) mod W) :: l, Z.land x (RLC_MASK bits)) end).
  assert (R0 : forall a, R a 0 = bn_rshb_low a bits) by (induction a0 as [|x a0 IH]; [reflexivity|]; cbn [R bn_rshb_low]; rewrite IH; reflexivity).
  assert (RS : forall a x c0, fst (R (a ++ [x]) c0) = fst (R a (Z.land x (RLC_MASK bits))) ++ [Z.lor (Z.shiftr x bits) ((Z.shiftl c0 ((64 - bits) mod 64)) mod W)]
     /\ snd (R (a ++ [x]) c0) = snd (R a (Z.land x (RLC_MASK bits)))).
  { induction a0 as [|y a0 IH]; intros x c0; [split; reflexivity|]. cbn [app R]. destruct (IH x c0) as [I1 I2].
    destruct (R (a0 ++ [x]) c0) as [l1 s1]. destruct (R a0 _) as [l2 s2]. cbn [fst snd] in *. subst. split; reflexivity. }
  assert (G : forall xs rest (w post : list Z) c0, a = xs ++ rest -> length w = length xs -> exists cy,
    for_down (length xs) (fun i cc => x <- rd a i ;;
    lo <- shr 64 x bits ;; hi <- shl 64 (snd cc) ((64 - bits) mod 64) ;;
    c <- wr (fst cc) i (Z.lor lo hi) ;;
    Some (c, Z.land x (RLC_MASK bits))) (w ++ post, c0) = Some (fst (R xs c0) ++ post, cy)).
  { induction xs as [|x xs IH] using rev_ind; intros rest w post c0 E Lw.
    - destruct w; [|discriminate]. exists c0. reflexivity.
    - rewrite app_length in Lw |- *. cbn [length] in Lw |- *. rewrite Nat.add_1_r. cbn [for_down fst snd]. rewrite <- app_assoc in E. cbn [app] in E. replace (rd a (Z.of_nat (length xs))) with (Some x) by (rewrite E; symmetry; apply rd_mid; reflexivity).
      rewrite shr_ok by exact Hbits. rewrite shl64_ok by (apply Z.mod_pos_bound; reflexivity).
      destruct (split_at w (length xs)) as (w1 & y & w2 & -> & L1); [lia|]. rewrite app_length in Lw. cbn [length] in Lw. destruct w2; [|cbn [length] in Lw; lia].
      rewrite <- app_assoc. cbn [app]. rewrite wr_mid by lia. destruct (IH (x :: rest) w1 (Z.lor (Z.shiftr x bits) ((Z.shiftl c0 ((64 - bits) mod 64)) mod W) :: post) (Z.land x (RLC_MASK bits)) E L1) as [cy ->].
      exists cy. destruct (RS xs x c0) as [-> _]. rewrite <- app_assoc. reflexivity. }
  destruct (G (firstn n a) (skipn n a) (firstn n c) (skipn n c) 0) as [cy E]; [symmetry; apply firstn_skipn|rewrite !firstn_length; lia|].
  rewrite firstn_skipn, firstn_length_le in E by exact La. exists cy. rewrite E, R0. reflexivity.
Qed.
