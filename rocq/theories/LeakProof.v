(** A checker for address traces: registers and stack slots are tracked as "initial pointer + constant" or
    unknown; an access through an unknown register, or a use of an undefined flag, makes the check fail. *)
From Coq Require Import ZArith List Lia Bool.
From Verif Require Import ModelWord ModelScalar ScalarProof X86 ModelLeak AsmCode.
Import ListNotations.
Local Open Scope Z_scope.

(** 0 = rdi, 1 = rsi, 2 = rdx, 3 = rsp at entry *)
Inductive base := BZ | BX | BY | BS.
Definition sval : Type := option (base * Z).
Record ast := mka { aregs : list sval; astk : list (Z * sval); acf : bool; aof : bool }.

Definition ridx (r : reg) : nat :=
  match r with
  | RAX => 0 | RBX => 1 | RCX => 2 | RDX => 3 | RSI => 4 | RDI => 5 | RBP => 6 | RSP => 7
  | R8 => 8 | R9 => 9 | R10 => 10 | R11 => 11 | R12 => 12 | R13 => 13 | R14 => 14 | R15 => 15
  end%nat.
Fixpoint updn {A} (n : nat) (v : A) (l : list A) : list A :=
  match l, n with [], _ => [] | _ :: l, O => v :: l | x :: l, S n => x :: updn n v l end.
Definition aget (r : reg) (a : ast) : sval := nth (ridx r) (aregs a) None.
Definition aset (r : reg) (v : sval) (a : ast) : ast :=
  mka (updn (ridx r) v (aregs a)) (astk a) (acf a) (aof a).
Definition aflags (c o : bool) (a : ast) : ast := mka (aregs a) (astk a) c o.
Fixpoint lookup (o : Z) (l : list (Z * sval)) : sval :=
  match l with [] => None | (k, v) :: l => if k =? o then v else lookup o l end.
Definition aread (o : operand) (a : ast) : sval :=
  match o with
  | R r => aget r a
  | I _ => None
  | M b off => match aget b a with Some (BS, k) => lookup (k + off) (astk a) | _ => None end
  end.
Definition aaddr (o : operand) (a : ast) : option (option (base * Z)) :=
  match o with
  | M b off => match aget b a with Some (q, k) => Some (Some (q, k + off)) | None => None end
  | _ => Some None
  end.
Definition awrite (o : operand) (v : sval) (a : ast) : option ast :=
  match o with
  | R r => Some (aset r v a)
  | I _ => None
  | M b off =>
      match aget b a with
      | Some (BS, k) => Some (mka (aregs a) ((k + off, v) :: astk a) (acf a) (aof a))
      | Some _ => Some (mka (aregs a) [] (acf a) (aof a))
      | None => None
      end
  end.
Inductive aev := ARd (q : base) (k : Z) | AWr (q : base) (k : Z).
Definition ard (o : operand) (a : ast) : option (list aev) :=
  match aaddr o a with Some (Some (q, k)) => Some [ARd q k] | Some None => Some [] | None => None end.
Definition awr (o : operand) (a : ast) : option (list aev) :=
  match aaddr o a with Some (Some (q, k)) => Some [AWr q k] | Some None => Some [] | None => None end.
Definition cat (x y : option (list aev)) : option (list aev) :=
  match x, y with Some l, Some m => Some (l ++ m) | _, _ => None end.
Definition arith (d src : operand) (c o : bool) (a : ast) : option (ast * list aev) :=
  match awrite d None (aflags c o a), cat (ard d a) (cat (ard src a) (awr d a)) with
  | Some a', Some l => Some (a', l) | _, _ => None end.
Definition astep (i : instr) (a : ast) : option (ast * list aev) :=
  match i with
  | Mov d src =>
      match awrite d (aread src a) a, cat (ard src a) (awr d a) with
      | Some a', Some l => Some (a', l) | _, _ => None end
  | Push src =>
      match aget RSP a, ard src a with
      | Some (BS, k), Some l =>
          Some (aset RSP (Some (BS, k - 8)) (mka (aregs a) ((k - 8, aread src a) :: astk a) (acf a) (aof a)),
                l ++ [AWr BS (k - 8)])
      | _, _ => None end
  | Pop d =>
      match aget RSP a with
      | Some (BS, k) => Some (aset d (lookup k (astk a)) (aset RSP (Some (BS, k + 8)) a), [ARd BS k])
      | _ => None end
  | Add d src | Sub d src => arith d src true false a
  | Adc d src | Sbb d src => if acf a then arith d src true false a else None
  | Xor d src => arith d src true true a
  | Mul src =>
      match ard src a with
      | Some l => Some (aflags false false (aset RDX None (aset RAX None a)), l) | None => None end
  | Mulx h l src =>
      match ard src a with Some e => Some (aset h None (aset l None a), e) | None => None end
  | Adcx d src => if acf a then arith d src true (aof a) a else None
  | Adox d src => if aof a then arith d src (acf a) true a else None
  | Cmovae d src => if acf a then arith d src (acf a) (aof a) a else None
  end.
Fixpoint arun (is : list instr) (a : ast) : option (list aev) :=
  match is with
  | [] => Some []
  | i :: is =>
      match astep i a with
      | Some (a', l) => match arun is a' with Some m => Some (l ++ m) | None => None end
      | None => None end
  end.

Section Sound.
Variable env : base -> Z.
Definition vrep (v : sval) (x : Z) : Prop := match v with Some (q, k) => x = env q + k | None => True end.
Definition conc (e : aev) : event := match e with ARd q k => Rd (env q + k) | AWr q k => Wr (env q + k) end.
Record rep (a : ast) (s : state) : Prop := mkrep {
  rep_len : length (aregs a) = 16%nat;
  rep_reg : forall r, vrep (aget r a) (get r s);
  rep_stk : forall o, vrep (lookup o (astk a)) (mem s (env BS + o));
  rep_cf : acf a = true -> cf s <> None;
  rep_of : aof a = true -> ovf s <> None }.

Lemma nth_updn {A} (l : list A) n m v d : (n < length l)%nat ->
  nth m (updn n v l) d = if Nat.eqb m n then v else nth m l d.
Proof.
  revert n m. induction l as [|x l IH]; intros n m L; cbn [length] in L; [lia|].
  destruct n, m; cbn [updn nth Nat.eqb]; auto. apply IH. lia.
Qed.
Lemma updn_len {A} (l : list A) n v : length (updn n v l) = length l.
Proof. revert n. induction l; intros [|n]; cbn; auto. Qed.
Definition req (r q : reg) : bool := Nat.eqb (ridx r) (ridx q).
Lemma get_set r q v s : get q (set r v s) = if Nat.eqb (ridx q) (ridx r) then v else get q s.
Proof. destruct s, r, q; reflexivity. Qed.
Lemma mem_set r v s : mem (set r v s) = mem s.  Proof. destruct s, r; reflexivity. Qed.
Lemma cf_set r v s : cf (set r v s) = cf s.  Proof. destruct s, r; reflexivity. Qed.
Lemma of_set r v s : ovf (set r v s) = ovf s.  Proof. destruct s, r; reflexivity. Qed.
Lemma rep_set a s r v x : rep a s -> vrep v x -> rep (aset r v a) (set r x s).
Proof.
  intros [L G K C O] V. split; cbn [aset aregs astk acf aof].
  - rewrite updn_len. exact L.
  - intros q. unfold aget, aset; cbn [aregs]. rewrite nth_updn, get_set by (rewrite L; destruct r; cbn; lia).
    destruct (Nat.eqb (ridx q) (ridx r)); [exact V|apply G].
  - rewrite mem_set. exact K.
  - rewrite cf_set. exact C.
  - rewrite of_set. exact O.
Qed.
Lemma rep_flags a s c o x y : rep a s -> (c = true -> x <> None) -> (o = true -> y <> None) ->
  rep (aflags c o a) (set_flags x y s).
Proof.
  intros [L G K C O] X Y. split; cbn [aflags aregs astk acf aof]; auto.
  - intros r. specialize (G r). unfold aget in *; cbn [aregs]. destruct s, r; exact G.
  - intros k. specialize (K k). destruct s; exact K.
  - destruct s; exact X.
  - destruct s; exact Y.
Qed.
Lemma mem_upd p x s : mem (set_mem p x s) = upd (mem s) p x.  Proof. destruct s; reflexivity. Qed.
Lemma rep_push a s k v x : rep a s -> vrep v x ->
  rep (mka (aregs a) ((k, v) :: astk a) (acf a) (aof a)) (set_mem (env BS + k) x s).
Proof.
  intros [L G K C O] V. split; cbn [aregs astk acf aof]; auto.
  - intros r. specialize (G r). unfold aget in *; cbn [aregs]. destruct s, r; exact G.
  - intros o. specialize (K o). rewrite mem_upd. unfold upd. cbn [lookup].
    destruct (Z.eqb_spec k o).
    + subst. rewrite Z.eqb_refl. exact V.
    + destruct (Z.eqb_spec (env BS + o) (env BS + k)); [lia|exact K].
  - destruct s; exact C.
  - destruct s; exact O.
Qed.
Lemma rep_forget a s p x : rep a s -> rep (mka (aregs a) [] (acf a) (aof a)) (set_mem p x s).
Proof.
  intros [L G K C O]. split; cbn [aregs astk acf aof]; auto.
  - intros r. specialize (G r). unfold aget in *; cbn [aregs]. destruct s, r; exact G.
  - intros o. exact Logic.I.
  - destruct s; exact C.
  - destruct s; exact O.
Qed.
Lemma rep_aread a s o : rep a s -> vrep (aread o a) (read o s).
Proof.
  intros H. destruct o as [r|z|b off]; cbn [aread read].
  - apply (rep_reg _ _ H).
  - exact Logic.I.
  - pose proof (rep_reg _ _ H b) as G. destruct (aget b a) as [[[] k]|]; try exact Logic.I.
    cbn [vrep] in G. rewrite G, <- Z.add_assoc. apply (rep_stk _ _ H).
Qed.
Lemma rep_awrite a s o v x a' : rep a s -> vrep v x -> awrite o v a = Some a' ->
  exists s', write o x s = Some s' /\ rep a' s'.
Proof.
  intros H V E. destruct o as [r|z|b off]; cbn [awrite write] in *; [|discriminate|].
  - injection E as <-. eexists; split; [reflexivity|]. apply rep_set; auto.
  - pose proof (rep_reg _ _ H b) as G. destruct (aget b a) as [[q k]|]; [|discriminate].
    cbn [vrep] in G. eexists; split; [reflexivity|].
    destruct q; injection E as <-; try (apply rep_forget; exact H).
    rewrite G, <- Z.add_assoc. apply rep_push; auto.
Qed.
Lemma ard_ok a s o l : rep a s -> ard o a = Some l -> rd_ev o s = map conc l.
Proof.
  intros H E. unfold ard in E. destruct o as [r|z|b off]; cbn [aaddr rd_ev] in *; try (injection E as <-; reflexivity).
  pose proof (rep_reg _ _ H b) as G. destruct (aget b a) as [[q k]|]; [|discriminate].
  injection E as <-. cbn [vrep map conc] in *. rewrite G, Z.add_assoc. reflexivity.
Qed.
Lemma awr_ok a s o l : rep a s -> awr o a = Some l -> wr_ev o s = map conc l.
Proof.
  intros H E. unfold awr in E. destruct o as [r|z|b off]; cbn [aaddr wr_ev] in *; try (injection E as <-; reflexivity).
  pose proof (rep_reg _ _ H b) as G. destruct (aget b a) as [[q k]|]; [|discriminate].
  injection E as <-. cbn [vrep map conc] in *. rewrite G, Z.add_assoc. reflexivity.
Qed.
Lemma cat_some x y l : cat x y = Some l -> exists p q, x = Some p /\ y = Some q /\ l = p ++ q.
Proof. destruct x, y; cbn; intros E; try discriminate. injection E as <-. eauto. Qed.
Lemma arith_ok a s d src c o x y v a' l : rep a s -> (c = true -> x <> None) -> (o = true -> y <> None) ->
  arith d src c o a = Some (a', l) ->
  (exists s', write d v (set_flags x y s) = Some s' /\ rep a' s') /\
  rd_ev d s ++ rd_ev src s ++ wr_ev d s = map conc l.
Proof.
  intros H X Y E. unfold arith in E.
  destruct (awrite d None (aflags c o a)) as [b|] eqn:EW; [|discriminate].
  destruct (cat (ard d a) (cat (ard src a) (awr d a))) as [m|] eqn:EC; [|discriminate]. injection E as <- <-.
  split.
  - eapply rep_awrite; [apply rep_flags; eassumption| |exact EW]. exact Logic.I.
  - apply cat_some in EC. destruct EC as (p & q & E1 & E2 & ->). apply cat_some in E2.
    destruct E2 as (p' & q' & E2 & E3 & ->).
    rewrite (ard_ok _ _ _ _ H E1), (ard_ok _ _ _ _ H E2), (awr_ok _ _ _ _ H E3), !map_app. reflexivity.
Qed.
Lemma set_flags_id s : set_flags (cf s) (ovf s) s = s.  Proof. destruct s; reflexivity. Qed.
Lemma astep_ok i a s a' l : rep a s -> astep i a = Some (a', l) ->
  (exists s', step i s = Some s' /\ rep a' s') /\ events i s = map conc l.
Proof.
  intros H E. destruct i; cbn [astep step events] in *.
  - destruct (awrite dst (aread src a) a) as [b|] eqn:EW; [|discriminate].
    destruct (cat (ard src a) (awr dst a)) as [m|] eqn:EC; [|discriminate]. injection E as <- <-. split.
    + eapply rep_awrite; [eassumption| |exact EW]. apply rep_aread; auto.
    + apply cat_some in EC. destruct EC as (p & q & E1 & E2 & ->).
      rewrite (ard_ok _ _ _ _ H E1), (awr_ok _ _ _ _ H E2), map_app. reflexivity.
  - pose proof (rep_reg _ _ H RSP) as G.
    destruct (aget RSP a) as [[[] k]|]; try discriminate. destruct (ard src a) as [m|] eqn:ER; [|discriminate].
    injection E as <- <-. cbn [vrep] in G. rewrite G. replace (env BS + k - 8) with (env BS + (k - 8)) by lia. split.
    + eexists; split; [reflexivity|]. apply rep_set; [|reflexivity]. apply rep_push; [exact H|apply rep_aread; exact H].
    + rewrite (ard_ok _ _ _ _ H ER), map_app. reflexivity.
  - pose proof (rep_reg _ _ H RSP) as G.
    destruct (aget RSP a) as [[[] k]|]; try discriminate. injection E as <- <-. cbn [vrep] in G. rewrite G. split.
    + eexists; split; [reflexivity|]. apply rep_set; [|apply (rep_stk _ _ H)].
      apply rep_set; [exact H|]. cbn [vrep]. lia.
    + reflexivity.
  - eapply arith_ok in E; [exact E|exact H|discriminate|discriminate].
  - destruct (acf a) eqn:C; [|discriminate]. pose proof (rep_cf _ _ H C). destruct (cf s) as [c|]; [|congruence].
    eapply arith_ok in E; [exact E|exact H|discriminate|discriminate].
  - eapply arith_ok in E; [exact E|exact H|discriminate|discriminate].
  - destruct (acf a) eqn:C; [|discriminate]. pose proof (rep_cf _ _ H C). destruct (cf s) as [c|]; [|congruence].
    eapply arith_ok in E; [exact E|exact H|discriminate|discriminate].
  - eapply arith_ok in E; [exact E|exact H|discriminate|discriminate].
  - destruct (ard src a) as [m|] eqn:ER; [|discriminate]. injection E as <- <-. split.
    + eexists; split; [reflexivity|]. apply rep_flags; [|discriminate|discriminate].
      apply rep_set; [|exact Logic.I]. apply rep_set; [exact H|exact Logic.I].
    + exact (ard_ok _ _ _ _ H ER).
  - destruct (ard src a) as [m|] eqn:ER; [|discriminate]. injection E as <- <-. split.
    + eexists; split; [reflexivity|].
      apply rep_set; [|exact Logic.I]. apply rep_set; [exact H|exact Logic.I].
    + exact (ard_ok _ _ _ _ H ER).
  - destruct (acf a) eqn:C; [|discriminate]. pose proof (rep_cf _ _ H C). destruct (cf s) as [c|]; [|congruence].
    eapply arith_ok in E; [exact E|exact H|discriminate|]. exact (rep_of _ _ H).
  - destruct (aof a) eqn:C; [|discriminate]. pose proof (rep_of _ _ H C). destruct (ovf s) as [c|]; [|congruence].
    eapply arith_ok in E; [exact E|exact H| |discriminate]. exact (rep_cf _ _ H).
  - destruct (acf a) eqn:C; [|discriminate]. pose proof (rep_cf _ _ H C) as N.
    destruct (cf s) as [c|] eqn:EC; [|congruence].
    rewrite <- (set_flags_id s). rewrite EC.
    eapply arith_ok with (x := Some c) (y := ovf s) in E; [|exact H|discriminate|exact (rep_of _ _ H)].
    replace (set_flags (Some c) (ovf s) s) with s in * by (rewrite <- EC; symmetry; apply set_flags_id). exact E.
Qed.
Lemma arun_ok is : forall a s l, rep a s -> arun is a = Some l -> leak is s = Some (map conc l).
Proof.
  induction is as [|i is IH]; intros a s l H E; cbn [arun leak] in *.
  - injection E as <-. reflexivity.
  - destruct (astep i a) as [[a' m]|] eqn:ES; [|discriminate].
    destruct (arun is a') as [n|] eqn:ER; [|discriminate]. injection E as <-.
    destruct (astep_ok _ _ _ _ _ H ES) as [(s' & -> & H') EE].
    rewrite (IH _ _ _ H' ER), EE, map_app. reflexivity.
Qed.
End Sound.

(** entry state: pointers in rdi, rsi, rsp, and in rdx for the two-operand routines *)
Definition ainit (two : bool) : ast :=
  mka [None; None; None; if two then Some (BY, 0) else None; Some (BX, 0); Some (BZ, 0); None; Some (BS, 0);
       None; None; None; None; None; None; None; None] [] false false.
Definition envof (s : state) (q : base) : Z :=
  match q with BZ => rdi s | BX => rsi s | BY => rdx s | BS => rsp s end.
Lemma rep_init two s : rep (envof s) (ainit two) s.
Proof.
  split; try discriminate; auto.
  - intros r. destruct r, two; cbn; auto; lia.
  - intros o. exact Logic.I.
Qed.
Lemma leak_of two code l s : arun code (ainit two) = Some l -> leak code s = Some (map (conc (envof s)) l).
Proof. intros E. eapply arun_ok; [apply rep_init|exact E]. Qed.

(** which symbolic accesses are fine: reads of the operands and of the own stack words, writes of the result
    and of the own stack words *)
Definition okev (two : bool) (n : Z) (e : aev) : bool :=
  match e with
  | ARd BX k => (0 <=? k) && (k <=? 40)
  | ARd BY k => two && (0 <=? k) && (k <=? 40)
  | ARd BZ k => false
  | ARd BS k | AWr BS k => (- 8 * n <=? k) && (k <=? - 8)
  | AWr BZ k => (0 <=? k) && (k <=? 40)
  | _ => false
  end.
Definition check (two : bool) (n : Z) (code : list instr) : bool :=
  match arun code (ainit two) with Some l => forallb (okev two n) l && forallb (fun e =>
    match e with ARd BY _ | AWr BY _ => two | _ => true end) l | None => false end.
Lemma check_leak two n code s1 s2 : check two n code = true ->
  rdi s1 = rdi s2 -> rsi s1 = rsi s2 -> (two = true -> rdx s1 = rdx s2) -> rsp s1 = rsp s2 ->
  exists l, leak code s1 = Some l /\ leak code s2 = Some l.
Proof.
  unfold check. intros E E1 E2 E3 E4. destruct (arun code (ainit two)) as [l|] eqn:A; [|discriminate].
  apply andb_true_iff in E. destruct E as [_ E]. rewrite forallb_forall in E.
  exists (map (conc (envof s1)) l). split; [apply (leak_of _ _ _ _ A)|].
  rewrite (leak_of _ _ _ s2 A). f_equal. apply map_ext_in. intros e I. specialize (E e I).
  destruct e as [[] k|[] k]; cbn [conc envof] in *; rewrite ?E1, ?E2, ?E4; auto; rewrite E3; auto.
Qed.
Lemma check_bounds two n code s : check two n code = true ->
  exists l, leak code s = Some l /\ forall e, In e l ->
   (exists a, e = Rd a /\ ((exists k, 0 <= k <= 40 /\ (a = rsi s + k \/ (two = true /\ a = rdx s + k)))
      \/ rsp s - 8 * n <= a <= rsp s - 8))
   \/ (exists a, e = Wr a /\ (rdi s <= a <= rdi s + 40 \/ rsp s - 8 * n <= a <= rsp s - 8)).
Proof.
  unfold check. intros E. destruct (arun code (ainit two)) as [l|] eqn:A; [|discriminate].
  apply andb_true_iff in E. destruct E as [E _]. rewrite forallb_forall in E.
  eexists. split; [apply (leak_of _ _ _ _ A)|]. intros e H. apply in_map_iff in H. destruct H as (x & <- & I).
  specialize (E x I). clear I A.
  destruct x as [[] k|[] k]; cbn [conc envof okev] in *; try discriminate;
    rewrite ?andb_true_iff, ?Z.leb_le in E; [left|left|left|right|right]; eexists; (split; [reflexivity|]).
  - left. exists k. split; [lia|]. left; reflexivity.
  - left. exists k. split; [lia|]. right. split; [apply E|reflexivity].
  - right. lia.
  - left. lia.
  - right. lia.
Qed.
Lemma check_add : check true 5 asm_add = true.  Proof. vm_compute. reflexivity. Qed.
Lemma check_ladd : check true 0 asm_ladd = true.  Proof. vm_compute. reflexivity. Qed.
Lemma check_double : check false 5 asm_double = true.  Proof. vm_compute. reflexivity. Qed.
Lemma check_ldouble : check false 0 asm_ldouble = true.  Proof. vm_compute. reflexivity. Qed.
Lemma check_subtract : check true 5 asm_subtract = true.  Proof. vm_compute. reflexivity. Qed.
Lemma check_lsubtract : check true 0 asm_lsubtract = true.  Proof. vm_compute. reflexivity. Qed.
Lemma check_negate : check false 0 asm_negate = true.  Proof. vm_compute. reflexivity. Qed.
Lemma check_multiply : check true 17 asm_multiply = true.  Proof. vm_compute. reflexivity. Qed.
Lemma check_mul_ex : check true 17 asm_mul_ex = true.  Proof. vm_compute. reflexivity. Qed.

(** ** The operations of scale *)
Fixpoint scale_ops (s : list Z) (n i : nat) : list gop :=
  match n with O => [] | S n => (if sbit s i then [GAdd] else []) ++ GDbl :: scale_ops s n (S i) end.
Lemma tscale_loop_eq {T} dbl add s n : forall i (q nn : T) log,
  tscale_loop dbl add s n i q nn log = (scale_loop dbl add s n i q nn, log ++ scale_ops s n i).
Proof.
  induction n; intros i q nn log; cbn [tscale_loop scale_loop scale_ops].
  - rewrite app_nil_r. reflexivity.
  - destruct (sbit s i); rewrite IHn, <- !app_assoc; reflexivity.
Qed.
Lemma tscale_eq {T} zero dbl add (x : T) s :
  tscale zero dbl add x s = (gscale zero dbl add x s, scale_ops s (Z.to_nat (bitLength s)) 0).
Proof. unfold tscale. rewrite tscale_loop_eq. reflexivity. Qed.
(** the value read off a log *)
Fixpoint read_ops (l : list gop) : Z :=
  match l with
  | [] => 0
  | GAdd :: l => 1 + read_ops l
  | GDbl :: l => 2 * read_ops l
  end.
Lemma read_ops_loop s n : forall i q k,
  scale_loop (fun x => 2 * x) Z.add s n i q k = q + k * read_ops (scale_ops s n i).
Proof.
  induction n; intros i q k; cbn [scale_loop scale_ops].
  - cbn. lia.
  - rewrite IHn. destruct (sbit s i); cbn [app read_ops]; lia.
Qed.
Lemma read_ops_ok s : words s -> read_ops (scale_ops s (Z.to_nat (bitLength s)) 0) = val s.
Proof.
  intros H. pose proof (gscale_ok Z (fun x => 2 * x) Z.add 0 (fun n q => q = n)) as G.
  specialize (G ltac:(intros; cbv beta in *; subst; reflexivity) ltac:(intros; cbv beta in *; subst; reflexivity) 1 s H eq_refl eq_refl).
  unfold gscale in G. rewrite read_ops_loop in G. lia.
Qed.
Lemma scale_ops_val s : words s ->
  scale_ops s (Z.to_nat (bitLength s)) 0 =
  flat_map (fun i => (if Z.testbit (val s) (Z.of_nat i) then [GAdd] else []) ++ [GDbl]) (seq 0 (Z.to_nat (bitLength s))).
Proof.
  intros H. generalize (Z.to_nat (bitLength s)) as n. intros n. generalize 0%nat as i.
  induction n; intros i; cbn [scale_ops seq flat_map]; [reflexivity|].
  rewrite sbit_ok, IHn, <- app_assoc by auto. reflexivity.
Qed.
Lemma tscale_inj : forall (T U : Type) (zero : T) dbl add x (zero' : U) dbl' add' x' s s',
  words s -> words s' ->
  (snd (tscale zero dbl add x s) = snd (tscale zero' dbl' add' x' s') <-> val s = val s').
Proof.
  intros * H H'. rewrite !tscale_eq. cbn [snd]. split; intros E.
  - apply (f_equal read_ops) in E. rewrite !read_ops_ok in E by auto. exact E.
  - rewrite !scale_ops_val by auto.
    assert (bitLength s = bitLength s') by (rewrite !bitLength_ok, E by auto; reflexivity).
    rewrite E, H0. reflexivity.
Qed.
Definition isD o := match o with GDbl => true | GAdd => false end.
Definition isA o := match o with GAdd => true | GDbl => false end.
Lemma scale_ops_dbl s n : forall i, length (filter isD (scale_ops s n i)) = n.
Proof.
  induction n; intros i; cbn [scale_ops]; [reflexivity|].
  rewrite filter_app, app_length. destruct (sbit s i); cbn; rewrite IHn; reflexivity.
Qed.
Lemma scale_ops_add s n : words s -> forall i, length (filter isA (scale_ops s n i)) =
  length (filter (fun i => Z.testbit (val s) (Z.of_nat i)) (seq i n)).
Proof.
  intros H. induction n; intros i; cbn [scale_ops seq filter]; [reflexivity|].
  rewrite filter_app, app_length, sbit_ok by auto. destruct (Z.testbit (val s) (Z.of_nat i)); cbn; rewrite IHn; reflexivity.
Qed.
Lemma filter_none {A} (f : A -> bool) l : (forall x, In x l -> f x = false) -> filter f l = [].
Proof. induction l; cbn; intros H; [reflexivity|]. rewrite (H a) by auto. apply IHl. auto. Qed.
Lemma tscale_counts : forall (T : Type) (zero : T) dbl add x s, words s ->
  let log := snd (tscale zero dbl add x s) in
  Z.of_nat (length (filter (fun o => match o with GDbl => true | GAdd => false end) log)) =
    (if val s =? 0 then 0 else Z.log2 (val s) + 1) /\
  length (filter (fun o => match o with GAdd => true | GDbl => false end) log) =
    length (filter (fun i => Z.testbit (val s) (Z.of_nat i)) (seq 0 (64 * length s))).
Proof.
  intros * H log. unfold log. rewrite tscale_eq. cbn [snd]. change (fun o => match o with GDbl => true | GAdd => false end) with isD.
  change (fun o => match o with GAdd => true | GDbl => false end) with isA.
  rewrite scale_ops_dbl, scale_ops_add by auto. pose proof (bitLength_bound s H) as [B1 B2].
  split; [rewrite Z2Nat.id by lia; apply bitLength_ok; auto|].
  set (f := fun i => Z.testbit (val s) (Z.of_nat i)).
  pose proof (val_bound s H) as [V0 V1].
  assert (HI : forall i, 2 ^ Z.of_nat i > val s -> f i = false).
  { intros i L. unfold f. destruct (Z.eqb_spec (val s) 0) as [->|N]; [apply Z.bits_0|].
    apply Z.bits_above_log2; [lia|]. apply Z.log2_lt_pow2; lia. }
  set (n := Z.to_nat (bitLength s)). set (m := (64 * length s)%nat).
  assert (forall k l, (k <= l)%nat -> (forall i, (k <= i < l)%nat -> f i = false) ->
    length (filter f (seq 0 k)) = length (filter f (seq 0 l))) as G.
  { intros k l L F. replace l with (k + (l - k))%nat by lia. rewrite seq_app, filter_app, app_length.
    rewrite (filter_none f (seq (0 + k) (l - k))); [cbn; lia|]. intros i I. apply in_seq in I. apply F. lia. }
  assert (A1 : forall i, (n <= i)%nat -> f i = false).
  { intros i L. apply HI. assert (2 ^ bitLength s <= 2 ^ Z.of_nat i); [|lia]. apply Z.pow_le_mono_r; unfold n in L; lia. }
  assert (A2 : forall i, (m <= i)%nat -> f i = false).
  { intros i L. apply HI. assert (W ^ Z.of_nat (length s) <= 2 ^ Z.of_nat i); [|lia].
    change W with (2 ^ 64). rewrite <- Z.pow_mul_r by lia. apply Z.pow_le_mono_r; unfold m in L; lia. }
  destruct (Nat.le_ge_cases n m) as [L|L].
  - apply G; auto. intros i I. apply A1. lia.
  - symmetry. apply G; auto. intros i I. apply A2. lia.
Qed.
