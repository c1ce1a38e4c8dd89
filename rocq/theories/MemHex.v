(** The hex routines of ModelMem.v: which strings are read outside, and the results. *)
From Coq Require Import ZArith List Bool Lia.
From Verif Require Import ModelWord ModelScalar PortArith ModelMem SpecBytes ScalarProof2 MemProof.
Import ListNotations.
Local Open Scope Z_scope.

Lemma c_pair_ok s j pre a b post : s = pre ++ a :: b :: post -> j = Z.of_nat (length pre) -> c_pair s j = Some ((hexval a * 16 + hexval b) mod 256).
Proof.
  intros -> ->. unfold c_pair. rewrite rd_mid by reflexivity.
  replace (pre ++ a :: b :: post) with ((pre ++ [a]) ++ b :: post) by (rewrite <- app_assoc; reflexivity). rewrite rd_mid by (rewrite app_length; cbn [length]; lia). reflexivity.
Qed.
Lemma pairs_loop_ok s st : forall n i xs pre post acc, length xs = (2 * n)%nat -> s = pre ++ xs ++ post -> Z.of_nat (length pre) = st + 2 * i ->
  for_up n i (fun i bytes => v <- c_pair s (st + 2 * i) ;; Some (bytes ++ [v])) acc = Some (acc ++ hex_pairs xs).
Proof.
  induction n as [|n IH]; intros i xs pre post acc L E P.
  - destruct xs; [|cbn [length] in L; lia]. cbn [for_up hex_pairs]. rewrite app_nil_r. reflexivity.
  - destruct xs as [|a [|b xs]]; cbn [length] in L; try lia. cbn [for_up hex_pairs app] in *. rewrite (c_pair_ok s _ pre a b (xs ++ post) E) by lia.
    rewrite (IH (i + 1) xs (pre ++ [a; b]) post); [rewrite <- app_assoc; reflexivity|lia|rewrite <- app_assoc; exact E|rewrite app_length; cbn [length]; lia].
Qed.
Lemma odd_mod (n : nat) : (Z.of_nat n mod 2 =? 0) = Nat.eqb (n mod 2) 0.
Proof. change 2 with (Z.of_nat 2). rewrite <- Nat2Z.inj_mod. destruct (Nat.eqb_spec (n mod 2) 0) as [->|H]; [reflexivity|]. apply Z.eqb_neq. lia. Qed.
Lemma half_even (n : nat) : (n mod 2 = 0)%nat -> n = (2 * (n / 2))%nat.
Proof. intros H. pose proof (Nat.div_mod n 2 ltac:(lia)). lia. Qed.
Lemma c_hexToBytes_ok s : c_hexToBytes s = match hexToBytes s with Ok b => Some b | _ => None end.
Proof.
  unfold c_hexToBytes, hexToBytes. destruct s as [|a [|b r]].
  - reflexivity.
  - unfold c_start. change (rd [a] 0) with (Some a). cbv iota beta. destruct (a =? 48); reflexivity.
  - set (s := a :: b :: r).
    assert (S0 : c_start s = Some (if (a =? 48) && (b =? 120) then 2 else 0)).
    { unfold c_start. change (rd s 0) with (Some a). change (rd s 1) with (Some b). cbv iota beta. destruct (a =? 48); reflexivity. }
    rewrite S0. rewrite odd_mod. destruct (Nat.eqb_spec (length s mod 2) 0) as [Ev|Od]; cbn [negb]; [|reflexivity].
    pose proof (half_even _ Ev) as HE. set (h := (length s / 2)%nat) in *.
    destruct ((a =? 48) && (b =? 120)).
    + replace (Z.to_nat ((Z.of_nat (length s) - 2) / 2)) with (h - 1)%nat by (rewrite HE; replace (Z.of_nat (2 * h) - 2) with ((Z.of_nat h - 1) * 2) by lia; rewrite Z.div_mul by lia; lia).
      apply (pairs_loop_ok s 2 (h - 1) 0 r [a; b] [] []); [unfold s in HE; cbn [length] in HE; lia|rewrite app_nil_r; reflexivity|reflexivity].
    + replace (Z.to_nat ((Z.of_nat (length s) - 0) / 2)) with h by (rewrite HE; replace (Z.of_nat (2 * h) - 0) with (Z.of_nat h * 2) by lia; rewrite Z.div_mul by lia; lia).
      apply (pairs_loop_ok s 0 h 0 s [] [] []); [exact HE|rewrite app_nil_r; reflexivity|reflexivity].
Qed.
Lemma hexToBytes_oob s : c_hexToBytes s = None <-> s = [] \/ s = [48].
Proof.
  rewrite c_hexToBytes_ok. unfold hexToBytes. destruct s as [|a [|b r]].
  - split; auto.
  - destruct (Z.eqb_spec a 48) as [->|N]; [split; auto|]. split; [discriminate|]. intros [H|H]; [discriminate H|]. injection H as H. contradiction.
  - destruct (negb _); (split; [discriminate|intros [H|H]; discriminate H]).
Qed.
(** the number of characters that have to be there *)
Definition prefix_len (s : list Z) : nat := match s with a :: b :: _ => if (a =? 48) && (b =? 120) then 2 else 0 | _ => 0 end.
Lemma c_start_str s : c_start (s ++ [0]) = Some (Z.of_nat (prefix_len s)).
Proof.
  destruct s as [|a [|b r]]; unfold c_start, prefix_len; cbn [app].
  - reflexivity.
  - change (rd [a; 0] 0) with (Some a). change (rd [a; 0] 1) with (Some 0). cbv iota beta. destruct (a =? 48); reflexivity.
  - change (rd (a :: b :: r ++ [0]) 0) with (Some a). change (rd (a :: b :: r ++ [0]) 1) with (Some b). cbv iota beta. destruct (a =? 48), (b =? 120); reflexivity.
Qed.
Lemma fillN_ok s st : forall n i xs pre post (o1 w o2 : list Z), length xs = (2 * n)%nat -> s = pre ++ xs ++ post -> Z.of_nat (length pre) = st + 2 * i -> length w = n -> Z.of_nat (length o1) = i ->
  for_up n i (fun i out => v <- c_pair s (st + 2 * i) ;; wr out i v) (o1 ++ w ++ o2) = Some (o1 ++ hex_pairs xs ++ o2).
Proof.
  induction n as [|n IH]; intros i xs pre post o1 w o2 L E P Lw Lo.
  - destruct xs; [|cbn [length] in L; lia]. destruct w; [|discriminate Lw]. reflexivity.
  - destruct xs as [|a [|b xs]]; cbn [length] in L; try lia. destruct w as [|x w]; [discriminate Lw|]. cbn [for_up hex_pairs app] in *. rewrite (c_pair_ok s _ pre a b (xs ++ post) E) by lia.
    rewrite wr_mid by lia. set (v := (hexval a * 16 + hexval b) mod 256). change (o1 ++ v :: w ++ o2) with (o1 ++ [v] ++ w ++ o2). rewrite app_assoc.
    rewrite (IH (i + 1) xs (pre ++ [a; b]) post); [rewrite <- app_assoc; reflexivity|lia|rewrite <- app_assoc; exact E|rewrite app_length; cbn [length]; lia|cbn [length] in Lw; lia|rewrite app_length; cbn [length]; lia].
Qed.
Lemma c_hexToBytesN_ok s out : (prefix_len s + 2 * length out <= length s + 1)%nat ->
  c_hexToBytesN s out = Some (hex_pairs (firstn (2 * length out) (skipn (prefix_len s) (s ++ [0])))).
Proof.
  intros L. unfold c_hexToBytesN. rewrite c_start_str. set (p := prefix_len s) in *. set (t := s ++ [0]) in *. assert (Lt : length t = S (length s)) by (unfold t; rewrite app_length; cbn [length]; lia).
  pose proof (fillN_ok t (Z.of_nat p) (length out) 0 (firstn (2 * length out) (skipn p t)) (firstn p t) (skipn (2 * length out) (skipn p t)) [] out []) as E.
  rewrite !app_nil_r in E. cbn [app] in E. apply E; clear E.
  - rewrite firstn_length, skipn_length. lia.
  - rewrite !firstn_skipn. reflexivity.
  - rewrite firstn_length. lia.
  - reflexivity.
  - reflexivity.
Qed.
Lemma for_up_none {S} body : forall n i (s : S), (exists k, (k < n)%nat /\ forall s, body (i + Z.of_nat k) s = None) -> for_up n i body s = None.
Proof.
  induction n as [|n IH]; intros i s (k & Hk & Hn); [lia|]. cbn [for_up]. destruct k as [|k].
  - change (Z.of_nat 0) with 0 in Hn. rewrite Z.add_0_r in Hn. rewrite Hn. reflexivity.
  - destruct (body i s); [|reflexivity]. apply IH. exists k. split; [lia|]. intros s'. replace (i + 1 + Z.of_nat k) with (i + Z.of_nat (Datatypes.S k)) by lia. apply Hn.
Qed.
Lemma rd_none {A} (l : list A) i : Z.of_nat (length l) <= i -> rd l i = None.
Proof. intros H. unfold rd. destruct (Z.ltb_spec i 0); [reflexivity|]. apply nth_error_None. lia. Qed.
Lemma c_hexToBytesN_oob s out : (length s + 1 < prefix_len s + 2 * length out)%nat -> c_hexToBytesN s out = None.
Proof.
  intros L. unfold c_hexToBytesN. rewrite c_start_str. assert (P2 : (prefix_len s <= length s)%nat) by (destruct s as [|a [|b r]]; cbn [prefix_len length]; try lia; destruct (_ && _); lia).
  apply for_up_none. exists (length out - 1)%nat. split; [lia|]. intros o. unfold c_pair.
  rewrite (rd_none (s ++ [0]) (_ + 1)) by (rewrite app_length; cbn [length]; lia). destruct (rd _ _); reflexivity.
Qed.
(** output *)
Lemma hexmap_rd n : 0 <= n < 16 -> rd hexmap n = Some (hexchar n).
Proof.
  intros H. assert (E : forallb (fun n => match rd hexmap n with Some c => c =? hexchar n | None => false end) (map Z.of_nat (seq 0 16)) = true) by reflexivity.
  rewrite forallb_forall in E. specialize (E n). rewrite in_map_iff in E. destruct (rd hexmap n) as [c|].
  - f_equal. apply Z.eqb_eq, E. exists (Z.to_nat n). rewrite in_seq. lia.
  - assert (false = true); [|discriminate]. apply E. exists (Z.to_nat n). rewrite in_seq. lia.
Qed.
Lemma nibbles x : byte x -> 0 <= Z.shiftr (Z.land x 0xF0) 4 < 16 /\ 0 <= Z.land x 0x0F < 16.
Proof.
  intros B. assert (E : forallb (fun x => (0 <=? Z.shiftr (Z.land x 0xF0) 4) && (Z.shiftr (Z.land x 0xF0) 4 <? 16) && (0 <=? Z.land x 0x0F) && (Z.land x 0x0F <? 16)) (map Z.of_nat (seq 0 256)) = true) by (vm_compute; reflexivity).
  rewrite forallb_forall in E. unfold byte in B. specialize (E x). rewrite in_map_iff in E. assert (X : exists n, Z.of_nat n = x /\ In n (seq 0 256)) by (exists (Z.to_nat x); rewrite in_seq; lia). specialize (E X).
  rewrite !andb_true_iff, !Z.leb_le, !Z.ltb_lt in E. lia.
Qed.
Lemma c_bytesToHex_ok b : bytes b -> c_bytesToHex b = Some (bytesToHex b).
Proof.
  intros B. unfold c_bytesToHex, bytesToHex. cbn [Nat.add repeat].
  pose proof (wr_mid [] (32 :: repeat 32 (length b * 2)) 32 48 0 eq_refl) as E0. pose proof (wr_mid [48] (repeat 32 (length b * 2)) 32 120 1 eq_refl) as E1. cbn [app] in E0, E1.
  rewrite E0, E1. clear E0 E1.
  match goal with |- for_up _ 0 ?f _ = _ => set (body := f) end.
  assert (G : forall xs pre s w, b = pre ++ xs -> length w = (length xs * 2)%nat -> length s = (2 + 2 * length pre)%nat ->
    for_up (length xs) (Z.of_nat (length pre)) body (s ++ w) = Some (s ++ flat_map (fun c => [hexchar (Z.shiftr (Z.land c 240) 4); hexchar (Z.land c 15)]) xs)).
  { induction xs as [|x xs IH]; intros pre s w E Lw Ls; cbn [length] in Lw.
    - destruct w; [|discriminate Lw]. reflexivity.
    - destruct w as [|w1 [|w2 w]]; cbn [length Nat.mul] in Lw; try lia. cbn [length for_up flat_map]. unfold body at 1. rewrite E, rd_mid by reflexivity.
      assert (Bx : byte x) by (rewrite E in B; unfold bytes in B; rewrite Forall_app in B; destruct B as [_ B]; inversion B; assumption). destruct (nibbles x Bx) as [N1 N2].
      rewrite (hexmap_rd _ N1), (hexmap_rd _ N2). rewrite wr_mid by lia.
      set (c1 := hexchar (Z.shiftr (Z.land x 240) 4)). set (c2 := hexchar (Z.land x 15)). replace (s ++ c1 :: w2 :: w) with ((s ++ [c1]) ++ w2 :: w) by (rewrite <- app_assoc; reflexivity).
      rewrite wr_mid by (rewrite app_length; cbn [length]; lia). replace ((s ++ [c1]) ++ c2 :: w) with ((s ++ [c1; c2]) ++ w) by (rewrite <- !app_assoc; reflexivity).
      replace (Z.of_nat (length pre) + 1) with (Z.of_nat (length (pre ++ [x]))) by (rewrite app_length; cbn [length]; lia).
      rewrite (IH (pre ++ [x])); [rewrite <- app_assoc; reflexivity|rewrite <- app_assoc; exact E|lia|rewrite !app_length; cbn [length]; lia]. }
  exact (G b [] [48; 120] (repeat 32 (length b * 2)) eq_refl (repeat_length _ _) eq_refl).
Qed.
