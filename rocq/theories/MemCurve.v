(** weightedSum, the pairing precomputation and the coefficient tables of ModelMem.v stay inside their arrays. *)
From Coq Require Import ZArith List Bool Lia.
From Verif Require Import ModelWord ModelScalar ModelPrim ModelFp ModelTower ModelDiv ModelCurve ModelPairing ModelKeys ModelMem MemProof.
Import ListNotations.
Local Open Scope Z_scope.

Lemma for_down_list {A S} (g : S -> A -> S) body (l : list A) : forall xs post s, l = xs ++ post ->
  (forall j q s, rd l (Z.of_nat j) = Some q -> body (Z.of_nat j) s = Some (g s q)) ->
  for_down (length xs) body s = Some (fold_left g (rev xs) s).
Proof.
  induction xs as [|x xs IH] using rev_ind; intros post s E Hb; [reflexivity|].
  rewrite app_length. cbn [length]. rewrite Nat.add_1_r. cbn [for_down]. rewrite <- app_assoc in E. cbn [app] in E.
  rewrite (Hb (length xs) x); [|rewrite E; apply rd_mid; reflexivity]. rewrite rev_app_distr. cbn [rev app fold_left]. eapply IH; [exact E|exact Hb].
Qed.
Lemma map_const {A} (x : A) : forall n k, map (fun _ => x) (seq k n) = repeat x n.
Proof. induction n as [|n IH]; intros k; [reflexivity|]. cbn [seq map repeat]. f_equal. apply IH. Qed.
Lemma ws_width_Z n : Z.of_nat (ws_width n) = c_ws_width (Z.of_nat n) /\ (3 <= ws_width n)%nat.
Proof.
  unfold ws_width, c_ws_width. destruct (Nat.leb_spec 32 n) as [H|H]; destruct (Z.leb_spec 32 (Z.of_nat n)); try lia.
  unfold countl_zero. assert (5 <= Z.log2 (Z.of_nat n)) by (change 5 with (Z.log2 32); apply Z.log2_le_mono; assumption).
  assert (2 <= (64 - (63 - Z.log2 (Z.of_nat n))) / 3) by (apply Z.div_le_lower_bound; lia).
  split; [|lia]. rewrite Z2Nat.id; lia.
Qed.
Section WS.
Context {T : Type} (o : fops T).
Lemma bucket_add_length : forall (l : list (jac T)) i p, length (bucket_add o l i p) = length l.
Proof. induction l as [|x l IH]; intros [|i] p; cbn [bucket_add length]; auto. Qed.
Lemma bucket_add_mid : forall i pre q (post : list (jac T)) p, length pre = i -> bucket_add o (pre ++ q :: post) i p = pre ++ j_add o q p :: post.
Proof. induction i as [|i IH]; intros pre q post p L; destruct pre as [|x pre]; try discriminate; [reflexivity|]. cbn [app bucket_add]. f_equal. apply IH. cbn [length] in L. lia. Qed.
Lemma ws_width_int n : Z.of_nat n < 2 ^ 64 -> Z.of_nat (ws_width n) < 31.
Proof.
  intros H. destruct (ws_width_Z n) as [-> _]. unfold c_ws_width. destruct (Z.leb_spec 32 (Z.of_nat n)); [|lia].
  unfold countl_zero. assert (Z.log2 (Z.of_nat n) < 64) by (apply Z.log2_lt_pow2; lia).
  assert ((64 - (63 - Z.log2 (Z.of_nat n))) / 3 < 22) by (apply Z.div_lt_upper_bound; lia). lia.
Qed.
Lemma ws_index_bound c j s : 0 <= ws_index c j s <= 2 ^ Z.of_nat c - 1.
Proof.
  unfold ws_index. rewrite Z.land_comm. replace (2 ^ Z.of_nat c - 1) with (Z.ones (Z.of_nat c)) by (rewrite Z.ones_equiv; lia).
  rewrite Z.land_ones by lia. pose proof (Z.mod_pos_bound (limb (rsh s (Z.of_nat (c * j))) 0) (2 ^ Z.of_nat c) ltac:(apply Z.pow_pos_nonneg; lia)). rewrite Z.ones_equiv. lia.
Qed.
Lemma rsh_length s n : length (rsh s n) = length s.
Proof. unfold rsh. rewrite map_length, seq_length. reflexivity. Qed.
Lemma c_ws_window_ok c points scalars sh j bucket : length sh <> 0%nat -> Forall (fun s => length s = length sh) scalars ->
  Z.of_nat (length bucket) = 2 ^ Z.of_nat c - 1 ->
  exists bk, c_ws_window o (Z.of_nat c) (2 ^ Z.of_nat c - 1) points scalars sh (Z.of_nat j) bucket = Some (ws_window o c (combine points scalars) j, bk) /\ length bk = length bucket.
Proof.
  intros Hsh Hs Lbk. unfold c_ws_window, ws_window. set (bs := 2 ^ Z.of_nat c - 1) in *. replace (Z.to_nat bs) with (length bucket) by lia.
  rewrite (for_up_fill0 (fun _ => j_zero o) _ bucket (length bucket) eq_refl) by reflexivity. rewrite map_const.
  replace (Nat.pow 2 c - 1)%nat with (length bucket).
  2:{ apply Nat2Z.inj. rewrite Lbk, Nat2Z.inj_sub, Nat2Z.inj_pow; [reflexivity|]. pose proof (Nat.pow_nonzero 2 c). lia. }
  set (bk0 := repeat (j_zero o) (length bucket)).
  assert (L0 : length bk0 = length bucket) by apply repeat_length.
  assert (G : forall ps ss k pp sp bk, points = pp ++ ps -> scalars = sp ++ ss -> length pp = k -> length sp = k -> length bk = length bucket ->
    for_up (Nat.min (length ss) (length ps)) (Z.of_nat k) (fun i bk =>
     s <- rd scalars i ;; sh <- c_rsh sh s (Z.of_nat c * Z.of_nat j) ;; x <- rd sh 0 ;;
     let index := Z.land bs x in
     if index =? 0 then Some bk
     else q <- rd bk (index - 1) ;; p <- rd points i ;; wr bk (index - 1) (j_add o q p)) bk = Some (ws_fill o c j (combine ps ss) bk) /\
    length (ws_fill o c j (combine ps ss) bk) = length bucket).
  { induction ps as [|p ps IH]; intros ss k pp sp bk E1 E2 L1 L2 L3; [rewrite Nat.min_0_r; split; [reflexivity|exact L3]|].
    destruct ss as [|s ss]; [split; [reflexivity|exact L3]|]. cbn [length Nat.min for_up combine]. unfold ws_fill. cbn [fold_left fst snd]. cbv zeta.
    replace (rd scalars (Z.of_nat k)) with (Some s) by (rewrite E2; symmetry; apply rd_mid; lia).
    assert (Ls : length s = length sh) by (rewrite E2 in Hs; apply Forall_app in Hs; destruct Hs as [_ Hs]; inversion Hs; assumption).
    rewrite c_rsh_ok by lia. replace (Z.of_nat c * Z.of_nat j) with (Z.of_nat (c * j)) by lia.
    rewrite (rd_limb _ 0) by (rewrite rsh_length; lia). change (Z.to_nat 0) with 0%nat. change (Z.land bs (limb (rsh s (Z.of_nat (c * j))) 0)) with (ws_index c j s).
    pose proof (ws_index_bound c j s) as B. fold bs in B. set (ix := ws_index c j s) in *.
    assert (ST : exists bk', (if ix =? 0 then Some bk else q <- rd bk (ix - 1) ;; p0 <- rd points (Z.of_nat k) ;; wr bk (ix - 1) (j_add o q p0)) = Some bk' /\
       bk' = (if ix =? 0 then bk else bucket_add o bk (Z.to_nat (ix - 1)) p)).
    { destruct (Z.eqb_spec ix 0) as [|Nx]; [exists bk; split; reflexivity|]. destruct (split_at bk (Z.to_nat (ix - 1))) as (pre & q & post & Eb & Lp); [lia|].
      eexists. split; [|reflexivity]. rewrite Eb. rewrite rd_mid by lia. rewrite E1 at 1. rewrite rd_mid by lia. rewrite wr_mid by lia. rewrite bucket_add_mid by exact Lp. reflexivity. }
    destruct ST as (bk' & -> & Ebk'). replace (Z.of_nat k + 1) with (Z.of_nat (S k)) by lia. fold ix.
    rewrite <- Ebk'. replace (Z.of_nat (c * j)) with (Z.of_nat c * Z.of_nat j) by lia. apply (IH ss (S k) (pp ++ [p]) (sp ++ [s]) bk').
    - rewrite <- app_assoc. exact E1.
    - rewrite <- app_assoc. exact E2.
    - rewrite app_length. cbn [length]. lia.
    - rewrite app_length. cbn [length]. lia.
    - rewrite Ebk'. destruct (ix =? 0); rewrite ?bucket_add_length; exact L3. }
  destruct (G points scalars 0%nat [] [] bk0 eq_refl eq_refl eq_refl eq_refl L0) as [E L1]. change (Z.of_nat 0) with 0 in E. cbv zeta in E. rewrite E. clear E G.
  set (bk := ws_fill o c j (combine points scalars) bk0) in *. rewrite <- L1.
  rewrite (for_down_list (fun acc_sum q => let sum := j_add o (snd acc_sum) q in (j_add o (fst acc_sum) sum, sum)) _ bk bk []).
  - exists bk. split; [reflexivity|reflexivity].
  - symmetry. apply app_nil_r.
  - intros i q s R. rewrite R. reflexivity.
Qed.
Lemma c_weightedSum_ok points scalars sh bucket0 : length sh <> 0%nat -> Forall (fun s => length s = length sh) scalars ->
  (forall n, Z.of_nat (length (bucket0 n)) = Z.max 0 n) -> Z.of_nat (length points) < 2 ^ 64 ->
  c_weightedSum o points scalars sh bucket0 = Some (j_weightedSum o points scalars).
Proof.
  intros Hsh Hs Hbk Hlen. unfold c_weightedSum, j_weightedSum. cbv zeta.
  replace (Z.min (Z.of_nat (length scalars)) (Z.of_nat (length points))) with (Z.of_nat (length (combine points scalars))) by (rewrite combine_length; lia).
  pose proof (ws_width_int (length (combine points scalars)) ltac:(rewrite combine_length; lia)) as HI. destruct (ws_width_Z (length (combine points scalars))) as [<- Hc]. set (ps := combine points scalars) in *. set (c := ws_width (length ps)) in *.
  destruct (Z.leb_spec 0 (Z.of_nat c)) as [_|]; [|lia]. destruct (Z.ltb_spec (Z.of_nat c) 31) as [_|]; [|lia]. cbn [andb]. unfold udiv. destruct (Z.eqb_spec (Z.of_nat c) 0) as [|_]; [lia|].
  assert (P1 : 0 < 2 ^ Z.of_nat c) by (apply Z.pow_pos_nonneg; lia).
  assert (LB : Z.of_nat (length (bucket0 (2 ^ Z.of_nat c - 1))) = 2 ^ Z.of_nat c - 1) by (rewrite Hbk; lia).
  replace (Z.to_nat (255 / Z.of_nat c + 1)) with (255 / c + 1)%nat.
  2:{ apply Nat2Z.inj. rewrite Z2Nat.id by (pose proof (Z.div_pos 255 (Z.of_nat c) ltac:(discriminate) ltac:(clearbody c; clear - Hc; lia)) as D; clear - D; lia). rewrite Nat2Z.inj_add, Nat2Z.inj_div. reflexivity. }
  set (nw := (255 / c + 1)%nat).
  assert (G : forall n k acc bk, Z.of_nat (length bk) = 2 ^ Z.of_nat c - 1 -> exists bk',
     for_up n (Z.of_nat k) (fun j wb => ab <- c_ws_window o (Z.of_nat c) (2 ^ Z.of_nat c - 1) points scalars sh j (snd wb) ;; Some (fst wb ++ [fst ab], snd ab)) (acc, bk)
     = Some (acc ++ map (ws_window o c ps) (seq k n), bk')).
  { induction n as [|n IH]; intros k acc bk Lbk; [exists bk; cbn [seq map for_up]; rewrite app_nil_r; reflexivity|].
    cbn [for_up seq map snd fst]. destruct (c_ws_window_ok c points scalars sh k bk Hsh Hs Lbk) as (bk1 & -> & L1). cbn [fst snd].
    replace (Z.of_nat k + 1) with (Z.of_nat (S k)) by lia. destruct (IH (S k) (acc ++ [ws_window o c ps k]) bk1) as [bk' E]; [lia|].
    exists bk'. fold ps in E |- *. rewrite E. rewrite <- app_assoc. reflexivity. }
  destruct (G nw 0%nat [] (bucket0 (2 ^ Z.of_nat c - 1)) LB) as [bk' E]. change (Z.of_nat 0) with 0 in E. rewrite E. clear E G. cbn [fst app].
  apply (for_down_list (fun acc w => j_add o (dbl_times o c acc) w) _ (map (ws_window o c ps) (seq 0 nw)) _ []).
  - symmetry. apply app_nil_r.
  - intros i q s R. rewrite Nat2Z.id.
    assert (D : forall n k a, for_up n k (fun _ acc => Some (j_dbl o acc)) a = Some (dbl_times o n a)) by (induction n as [|n IH]; intros k a; [reflexivity|]; cbn [for_up dbl_times]; apply IH).
    rewrite D, R. reflexivity.
Qed.
End WS.

(** ** pairing *)
Lemma bit_test w i : 0 <= i -> (Z.land (Z.shiftr w i) 1 =? 1) = Z.testbit w i.
Proof.
  intros Hi. change 1 with (Z.ones 1) at 1. rewrite Z.land_ones by discriminate. change (2 ^ 1) with 2. rewrite Zmod_odd, <- Z.bit0_odd, Z.shiftr_spec by lia.
  rewrite Z.add_0_l. destruct (Z.testbit w i); reflexivity.
Qed.
Lemma eff_word : rd g2_cofactorEFF 0 = Some (hd 0 g2_cofactorEFF). Proof. reflexivity. Qed.
Definition pre_body (tp : g2) (i : Z) (s : list ellc * g2 * Z) : option (list ellc * g2 * Z) :=
  let '(arr, r, k) := s in
  let cr := doubling_step r in
  arr <- wr arr k (fst cr) ;;
  w <- rd g2_cofactorEFF 0 ;;
  if Z.land (Z.shiftr w i) 1 =? 1 then
    let k := k + 1 in
    let cr' := addition_step (snd cr) tp in
    arr <- wr arr k (fst cr') ;; Some (arr, snd cr', k + 1)
  else Some (arr, snd cr, k + 1).
Lemma pre_loop_mem tp : forall n r pre w post k, k = Z.of_nat (length pre) -> length w = length (pre_loop n r tp) ->
  exists r' k', for_down n (pre_body tp) (pre ++ w ++ post, r, k) = Some (pre ++ pre_loop n r tp ++ post, r', k').
Proof.
  induction n as [|n IH]; intros r pre w post k Hk Lw.
  - cbn [pre_loop length] in Lw. destruct w; [|discriminate]. exists r, k. reflexivity.
  - cbn [pre_loop] in Lw |- *. cbv zeta in Lw |- *. cbn [for_down]. unfold pre_body at 1. rewrite eff_word. rewrite bit_test by lia. fold (eff_bit n).
    cbv zeta. generalize dependent (doubling_step r). intros [c1 r1] Lw. cbn [fst snd] in *.
    destruct w as [|x w]; [destruct (eff_bit n); discriminate|]. cbn [app]. rewrite wr_mid by exact Hk.
    destruct (eff_bit n).
    + generalize dependent (addition_step r1 tp). intros [c2 r2] Lw. cbn [fst snd length] in *. destruct w as [|y w]; [discriminate|]. cbn [app].
      change (pre ++ c1 :: y :: w ++ post) with (pre ++ [c1] ++ y :: w ++ post). rewrite app_assoc, wr_mid by (rewrite app_length; cbn [length]; lia).
      rewrite <- app_assoc. cbn [app]. change (pre ++ c1 :: c2 :: w ++ post) with (pre ++ [c1; c2] ++ w ++ post). rewrite app_assoc.
      destruct (IH r2 (pre ++ [c1; c2]) w post (k + 1 + 1)) as (r' & k' & E); [rewrite app_length; cbn [length]; lia|cbn [length] in Lw; lia|].
      rewrite E. exists r', k'. rewrite <- app_assoc. reflexivity.
    + cbn [length] in Lw. change (pre ++ c1 :: w ++ post) with (pre ++ [c1] ++ w ++ post). rewrite app_assoc.
      destruct (IH r1 (pre ++ [c1]) w post (k + 1)) as (r' & k' & E); [rewrite app_length; cbn [length]; lia|lia|].
      rewrite E. exists r', k'. rewrite <- app_assoc. reflexivity.
Qed.
Fixpoint pl (n : nat) : nat := match n with O => O | S i => if eff_bit i then S (S (pl i)) else S (pl i) end.
Lemma pl_len : forall n r q, length (pre_loop n r q) = pl n.
Proof. induction n as [|n IH]; intros r q; [reflexivity|]. cbn [pre_loop pl]. cbv zeta. destruct (eff_bit n); cbn [length]; rewrite IH; reflexivity. Qed.
Lemma pl_63 : pl 63 = 68%nat. Proof. reflexivity. Qed.
Lemma c_pre_compute_eq arr tp : c_pre_compute arr tp = if g2_isZero tp then Some arr else s <- for_down 63 (pre_body tp) (arr, tp, 0) ;; Some (fst (fst s)).
Proof. reflexivity. Qed.
Lemma c_pre_compute_ok tp : exists l, pre_compute tp = Ok l /\ length l = 68%nat /\ c_pre_compute (repeat ell_zero 68) tp = Some l.
Proof.
  rewrite c_pre_compute_eq. unfold pre_compute. destruct (g2_isZero tp).
  - exists (repeat ell_zero 68). split; [reflexivity|]. split; [apply repeat_length|reflexivity].
  - destruct (pre_loop_mem tp 63 tp [] (repeat ell_zero 68) [] 0 eq_refl) as (r' & k' & E); [rewrite pl_len, pl_63; apply repeat_length|].
    pose proof (pl_len 63 tp tp) as L. rewrite pl_63 in L. exists (pre_loop 63 tp tp). unfold store68. rewrite L.
    change (68 <=? 68)%nat with true. change (68 - 68)%nat with 0%nat. cbv iota. split; [|split; [reflexivity|]].
    + change (repeat ell_zero 0) with (@nil ellc). rewrite app_nil_r. reflexivity.
    + revert E. generalize (pre_loop 63 tp tp). intros l E. rewrite !app_nil_r in E. change ([] ++ l) with l in E.
      change ([] ++ repeat ell_zero 68) with (repeat ell_zero 68) in E. rewrite E. reflexivity.
Qed.
Definition fill_body (all : list (g1 * g2)) (i : Z) (cs : list (list ellc)) : option (list (list ellc)) :=
  p <- rd all i ;; arr <- rd cs i ;; arr <- c_pre_compute arr (snd p) ;; wr cs i arr.
Lemma pre_all_mem : forall ps, exists r, pre_all ps = Ok r /\ map fst r = map fst ps /\ Forall (fun x => length (snd x) = 68%nat) r /\
  forall all allc pre prec, all = pre ++ ps -> allc = prec ++ repeat (repeat ell_zero 68) (length ps) -> length pre = length prec ->
  for_up (length ps) (Z.of_nat (length pre)) (fill_body all) allc = Some (prec ++ map snd r).
Proof.
  induction ps as [|[p q] ps (r & E & M & F & L)].
  - exists []. split; [reflexivity|]. split; [reflexivity|]. split; [constructor|]. intros all allc pre prec _ -> _. reflexivity.
  - destruct (c_pre_compute_ok q) as (l & Eq & Ll & Cq). exists ((p, l) :: r). cbn [pre_all]. rewrite Eq. cbn [obind]. rewrite E. cbn [obind].
    split; [reflexivity|]. split; [cbn [map fst]; f_equal; exact M|]. split; [constructor; [exact Ll|exact F]|].
    intros all allc pre prec Ea Ec Lp. change (length ((p, q) :: ps)) with (S (length ps)) in *. cbn [for_up]. change (repeat (repeat ell_zero 68) (S (length ps))) with (repeat ell_zero 68 :: repeat (repeat ell_zero 68) (length ps)) in Ec. unfold fill_body at 1.
    replace (rd all (Z.of_nat (length pre))) with (Some (p, q)) by (rewrite Ea; symmetry; apply rd_mid; reflexivity).
    rewrite Ec. rewrite rd_mid by lia. cbn [snd]. rewrite Cq. rewrite wr_mid by lia. change (prec ++ l :: repeat (repeat ell_zero 68) (length ps)) with (prec ++ [l] ++ repeat (repeat ell_zero 68) (length ps)).
    rewrite app_assoc. replace (Z.of_nat (length pre) + 1) with (Z.of_nat (length (pre ++ [(p, q)]))) by (rewrite app_length; cbn [length]; lia).
    rewrite (L all _ (pre ++ [(p, q)]) (prec ++ [l])); [rewrite <- app_assoc; reflexivity|rewrite <- app_assoc; exact Ea|reflexivity|rewrite !app_length; cbn [length]; lia].
Qed.
Lemma ell_all_mem k : forall r (ps pre : list (g1 * g2)) prec cs all f, map fst r = map fst ps -> Forall (fun x => length (snd x) = 68%nat) r -> (k < 68)%nat ->
  all = pre ++ ps -> cs = prec ++ map snd r -> length pre = length prec ->
  exists f', ell_all k r f = Ok f' /\
  for_up (length ps) (Z.of_nat (length pre)) (fun j f => cs <- rd cs j ;; c <- rd cs (Z.of_nat k) ;; p <- rd all j ;; Some (ell f c (fst p))) f = Some f'.
Proof.
  induction r as [|[p l] r IH]; intros ps pre prec cs all f M F Hk Ea Ec Lp; destruct ps as [|[p' q] ps]; try discriminate M.
  - exists f. split; reflexivity.
  - cbn [map fst] in M. injection M as <- M. inversion F as [|x0 x1 Ll F']; subst x0 x1. cbn [snd] in Ll.
    change (length ((p, q) :: ps)) with (S (length ps)). cbn [for_up ell_all].
    replace (rd cs (Z.of_nat (length pre))) with (Some l) by (rewrite Ec; symmetry; cbn [map snd]; apply rd_mid; lia).
    replace (rd all (Z.of_nat (length pre))) with (Some (p, q)) by (rewrite Ea; symmetry; apply rd_mid; reflexivity).
    unfold rd at 1. destruct (Z.ltb_spec (Z.of_nat k) 0) as [|_]; [lia|]. rewrite Nat2Z.id.
    destruct (nth_error l k) as [c|] eqn:EN; [|apply nth_error_None in EN; lia]. cbn [fst].
    replace (Z.of_nat (length pre) + 1) with (Z.of_nat (length (pre ++ [(p, q)]))) by (rewrite app_length; cbn [length]; lia).
    apply (IH ps (pre ++ [(p, q)]) (prec ++ [l])); auto.
    + rewrite <- app_assoc. exact Ea.
    + rewrite <- app_assoc. exact Ec.
    + rewrite !app_length. cbn [length]. lia.
Qed.
Lemma c_ell_all_ok k r (ps : list (g1 * g2)) f : map fst r = map fst ps -> Forall (fun x => length (snd x) = 68%nat) r -> (k < 68)%nat -> 1 <= Z.of_nat (length ps) <= 2 ^ 64 ->
  exists f', ell_all k r f = Ok f' /\ c_ell_all (map snd r) ps (Z.of_nat k) f = Some f'.
Proof.
  intros M F Hk B. unfold c_ell_all. rewrite Z.mod_small by lia. replace (Z.to_nat (Z.of_nat (length ps) - 1 + 1)) with (length ps) by lia.
  exact (ell_all_mem k r ps [] [] (map snd r) ps f M F Hk eq_refl eq_refl eq_refl).
Qed.
Definition mil_body (cs : list (list ellc)) (pairs : list (g1 * g2)) (i : Z) (fk : fp12 * Z) : option (fp12 * Z) :=
  let (f, k) := fk : fp12 * Z in
  let f := if i =? 62 then f else fp12_sqr f in
  f <- c_ell_all cs pairs k f ;;
  w <- rd g2_cofactorEFF 0 ;;
  if Z.land (Z.shiftr w i) 1 =? 1 then
    let k := k + 1 in f <- c_ell_all cs pairs k f ;; Some (f, k + 1)
  else Some (f, k + 1).
Lemma mil_mem r (ps : list (g1 * g2)) : map fst r = map fst ps -> Forall (fun x => length (snd x) = 68%nat) r -> 1 <= Z.of_nat (length ps) <= 2 ^ 64 ->
  forall n k f, (k + pl n <= 68)%nat -> exists f' k', mil_loop n k r f = Ok f' /\ for_down n (mil_body (map snd r) ps) (f, Z.of_nat k) = Some (f', k').
Proof.
  intros M F B. induction n as [|n IH]; intros k f Hk.
  - exists f, (Z.of_nat k). split; reflexivity.
  - cbn [pl] in Hk. cbn [mil_loop for_down]. cbv zeta. unfold mil_body at 1. cbv zeta. rewrite eff_word. rewrite bit_test by lia. fold (eff_bit n).
    replace (Z.of_nat n =? 62) with (n =? 62)%nat by (destruct (Nat.eqb_spec n 62); destruct (Z.eqb_spec (Z.of_nat n) 62); lia).
    generalize (if (n =? 62)%nat then f else fp12_sqr f). intros g.
    destruct (c_ell_all_ok k r ps g M F) as (f1 & E1 & C1); [destruct (eff_bit n); lia|exact B|]. rewrite E1, C1. cbn [obind].
    destruct (eff_bit n).
    + replace (Z.of_nat k + 1) with (Z.of_nat (S k)) by lia. destruct (c_ell_all_ok (S k) r ps f1 M F) as (f2 & E2 & C2); [lia|exact B|]. rewrite E2, C2. cbn [obind].
      replace (Z.of_nat (S k) + 1) with (Z.of_nat (S (S k))) by lia. apply IH. lia.
    + replace (Z.of_nat k + 1) with (Z.of_nat (S k)) by lia. apply IH. lia.
Qed.
Lemma c_miller_loop_eq ps : c_miller_loop ps =
  (cs <- for_up (length ps) 0 (fill_body ps) (repeat (repeat ell_zero 68) (length ps)) ;;
   fk <- for_down 63 (mil_body cs ps) (fp12_one, 0) ;; Some (fp12_conj (fst fk))).
Proof. reflexivity. Qed.
Lemma c_miller_loop_ok ps : 1 <= Z.of_nat (length ps) <= 2 ^ 64 -> exists f, miller_loop ps = Ok f /\ c_miller_loop ps = Some f.
Proof.
  intros B. destruct (pre_all_mem ps) as (r & E & M & F & L). specialize (L ps (repeat (repeat ell_zero 68) (length ps)) [] [] eq_refl eq_refl eq_refl). cbn [app length] in L.
  change (Z.of_nat 0) with 0 in L.
  destruct (mil_mem r ps M F B 63 0 fp12_one) as (f & k & E1 & C1); [rewrite pl_63; apply le_n|]. change (Z.of_nat 0) with 0 in C1.
  exists (fp12_conj f). split.
  - unfold miller_loop. destruct ps as [|p0 ps]; [cbn in B; lia|]. rewrite E. cbn [obind]. rewrite E1. reflexivity.
  - rewrite c_miller_loop_eq, L, C1. reflexivity.
Qed.
(** the empty list: pairs.size() - 1 is 2^64 - 1, the first iteration reads ellCoeffs[0] of an empty vector *)
Lemma for_down_none {S} n body (s : S) : body (Z.of_nat n) s = None -> for_down (Datatypes.S n) body s = None.
Proof. intros E. cbn [for_down]. rewrite E. reflexivity. Qed.
Lemma c_ell_all_empty k f : c_ell_all [] [] k f = None.
Proof.
  unfold c_ell_all. rewrite Z.add_1_r, Z2Nat.inj_succ by (apply Z.mod_pos_bound; reflexivity). generalize (Z.to_nat ((Z.of_nat (length (@nil (g1 * g2))) - 1) mod 2 ^ 64)). intros n. reflexivity.
Qed.
Lemma c_miller_loop_empty : c_miller_loop [] = None.
Proof.
  rewrite c_miller_loop_eq. change (for_up (length (@nil (g1 * g2))) 0 (fill_body []) (repeat (repeat ell_zero 68) (length (@nil (g1 * g2))))) with (Some (@nil (list ellc))). cbv iota beta.
  rewrite for_down_none; [reflexivity|]. unfold mil_body. cbv zeta. rewrite c_ell_all_empty. reflexivity.
Qed.

(** ** coefficient tables *)
Lemma c_coeff6_ok power : 0 <= power -> exists a b, c_coeff6 power = Some (a, b).
Proof.
  intros H. unfold c_coeff6. pose proof (Z.mod_pos_bound power 6 eq_refl) as B.
  rewrite (rd_nth frobeniusCoeffs61 _ fp2_zero) by exact B. rewrite (rd_nth frobeniusCoeffs62 _ fp2_zero) by exact B. eexists. eexists. reflexivity.
Qed.
Lemma c_coeff12_ok power : 0 <= power -> (c_coeff12 power <> None <-> power < 12).
Proof.
  intros H. unfold c_coeff12, rd. destruct (Z.ltb_spec power 0); [lia|]. rewrite nth_error_Some. change (length frobeniusCoeffs12) with 12%nat. lia.
Qed.
Lemma c_power_ok power : 0 <= power -> (c_power power <> None <-> power < 384).
Proof.
  intros H. unfold c_power. rewrite shl_ok by (apply Z.mod_pos_bound; reflexivity). unfold wr, wr_range. cbn [length repeat]. change (Z.of_nat 6) with 6. change (Z.of_nat 1) with 1.
  pose proof (Z.div_pos power 64 H eq_refl) as D. destruct (Z.leb_spec 0 (power / 64)); [|lia]. cbn [andb].
  destruct (Z.leb_spec (power / 64 + 1) 6) as [L|L].
  - split; [intros _|discriminate]. assert (power / 64 < 6) by lia. apply Z.nle_gt. intros C. assert (384 / 64 <= power / 64) by (apply Z.div_le_mono; lia). change (384 / 64) with 6 in *. lia.
  - split; [intros N; elim N; reflexivity|]. intros C. exfalso. assert (power / 64 < 6) by (apply Z.div_lt_upper_bound; lia). lia.
Qed.
