(** Proofs about ModelHeap.v. *)
From Coq Require Import ZArith List Bool Lia Arith.
From Verif Require Import SpecBytes SpecField ModelWord ModelScalar ModelSha ModelKdf ModelDiv ModelKeys ModelHeap ScalarProof BytesProof MemSha KdfProof KeysProof.
Import ListNotations.
Local Open Scope Z_scope.

Lemma revert_any s : bytes (sha_revert s) /\ length (sha_revert s) = 32%nat.
Proof.
  split; [|reflexivity]. unfold sha_revert. apply Forall_flat_map, Forall_forall. intros j _. apply Forall_forall. intros x Hx. apply in_map_iff in Hx. destruct Hx as (i & <- & _).
  change 0xff with (Z.ones 8). rewrite Z.land_ones by discriminate. apply Z.mod_pos_bound. reflexivity.
Qed.
Lemma sha_any c : bytes (sha256 c) /\ length (sha256 c) = 32%nat.
Proof. unfold sha256, sha256_from, sha_digest. apply revert_any. Qed.
Lemma hmac_any i k : bytes (hkdf256_hmac i k) /\ length (hkdf256_hmac i k) = 32%nat.
Proof. unfold hkdf256_hmac. apply sha_any. Qed.
Global Opaque hkdf256_hmac.
Lemma del_head n l : del n (n :: l) = Some l.
Proof. cbn [del]. rewrite Nat.eqb_refl. reflexivity. Qed.

Section Heap.
Variable ok : nat -> bool.
Variable u_T u_prk : nat -> list Z.
Hypothesis HT : forall n, bytes (u_T n) /\ length (u_T n) = 32%nat.
Hypothesis Hprk : forall n, bytes (u_prk n) /\ length (u_prk n) = 32%nat.

Lemma h_hmac_eq mac i k h : h_hmac ok mac i k h = Res (if ok (calls h) then (0, hkdf256_hmac i k) else (-1, mac)) (mkHeap (S (calls h)) (live h)).
Proof. unfold h_hmac, malloc, free, ret. destruct (ok (calls h)); [|reflexivity]. cbn [live calls]. rewrite del_head. reflexivity. Qed.

Definition opt (p : option nat) : list nat := match p with Some n => [n] | None => [] end.
Definition distinct (p q : option nat) : Prop := match p, q with Some a, Some b => a <> b | _, _ => True end.
Lemma free_both p1 p2 base c : distinct p1 p2 ->
  free p1 (mkHeap c (opt p2 ++ opt p1 ++ base)) = Res tt (mkHeap c (opt p2 ++ base)) /\ free p2 (mkHeap c (opt p2 ++ base)) = Res tt (mkHeap c base).
Proof.
  intros D. unfold free. destruct p1 as [a|], p2 as [b|]; cbn [opt app live calls distinct] in *; rewrite ?del_head; split; try reflexivity.
  cbn [del]. destruct (Nat.eqb_spec b a) as [E|_]; [congruence|]. rewrite Nat.eqb_refl. reflexivity.
Qed.
Lemma loop_any L prk info p1 p2 base : distinct p1 p2 -> forall n i T out c, bytes T -> length T = 32%nat -> bytes out ->
  0 <= L - Z.of_nat (length out) -> 32 * (Z.of_nat n - 1) < L - Z.of_nat (length out) <= 32 * Z.of_nat n ->
  h_expand_loop ok n i L prk info T p1 p2 out (mkHeap c (opt p2 ++ opt p1 ++ base)) = NullAccess \/
  exists o, h_expand_loop ok n i L prk info T p1 p2 out (mkHeap c (opt p2 ++ opt p1 ++ base)) = Res (0, o) (mkHeap (n + c) base) /\ Z.of_nat (length o) = L /\ bytes o.
Proof.
  intros D. induction n as [|n IH]; intros i T out c BT LT BO P R; cbn [h_expand_loop].
  - destruct (free_both p1 p2 base c D) as [-> ->]. right. exists out. assert (E : Z.of_nat (length out) = L) by lia. rewrite E, Z.eqb_refl. auto.
  - destruct (if i =? 1 then need p1 else need p2) as [[] h| |] eqn:N.
    + assert (h = mkHeap c (opt p2 ++ opt p1 ++ base)) as -> by (destruct (i =? 1); unfold need in N; [destruct p1|destruct p2]; try discriminate; injection N as <-; reflexivity).
      rewrite h_hmac_eq. cbn [calls live].
      set (r := if ok c then _ else _). assert (Hr : bytes (snd r) /\ length (snd r) = 32%nat) by (subst r; destruct (ok c); [apply hmac_any|split; assumption]).
      destruct Hr as [Br Lr]. clearbody r. cbv zeta. set (tw := if 32 <? _ then _ else _).
      assert (Tw : 1 <= tw <= 32 /\ tw <= L - Z.of_nat (length out) /\ (tw = 32 \/ tw = L - Z.of_nat (length out))) by (subst tw; destruct (Z.ltb_spec 32 (L - Z.of_nat (length out))); lia).
      clearbody tw. assert ((tw <=? 0) || (32 <? tw) = false) as -> by (apply orb_false_iff; split; [apply Z.leb_gt|apply Z.ltb_ge]; lia).
      replace (S n + c)%nat with (n + S c)%nat by lia. apply IH; try assumption.
      * apply Forall_app. split; [exact BO|]. apply bytes_firstn. exact Br.
      * rewrite app_length, firstn_length. lia.
      * rewrite app_length, firstn_length. lia.
    + left. reflexivity.
    + exfalso. destruct (i =? 1); unfold need in N; [destruct p1|destruct p2]; discriminate.
Qed.
Lemma loop_ok L prk info a b base : a <> b -> (forall k, ok k = true) -> forall n i T T' out c, i = 1 \/ T = T' -> 1 <= i ->
  0 <= L - Z.of_nat (length out) -> 32 * (Z.of_nat n - 1) < L - Z.of_nat (length out) <= 32 * Z.of_nat n ->
  h_expand_loop ok n i L prk info T (Some a) (Some b) out (mkHeap c (b :: a :: base)) = Res (expand_loop n i L prk info T' out) (mkHeap (n + c) base).
Proof.
  intros D K. induction n as [|n IH]; intros i T T' out c E I P R; cbn [h_expand_loop expand_loop].
  - destruct (free_both (Some a) (Some b) base c D) as [F1 F2]. cbn [opt app] in F1, F2. rewrite F1, F2. unfold ret. destruct (_ =? L); reflexivity.
  - assert (N : (if i =? 1 then need (Some a) else need (Some b)) (mkHeap c (b :: a :: base)) = Res tt (mkHeap c (b :: a :: base))) by (destruct (i =? 1); reflexivity).
    rewrite N, h_hmac_eq, K. cbn [calls live snd].
    replace (hkdf256_hmac (if i =? 1 then info ++ [u8 i] else T ++ info ++ [u8 i]) prk) with (if i =? 1 then hkdf256_hmac (info ++ [u8 i]) prk else hkdf256_hmac (T' ++ info ++ [u8 i]) prk)
      by (destruct (Z.eqb_spec i 1); [reflexivity|]; destruct E as [E| ->]; [contradiction|reflexivity]).
    set (t := if i =? 1 then _ else _). assert (Lt : length t = 32%nat) by (subst t; destruct (i =? 1); apply hmac_any). clearbody t. cbv zeta.
    set (tw := if 32 <? _ then _ else _).
    assert (Tw : 1 <= tw <= 32 /\ tw <= L - Z.of_nat (length out) /\ (tw = 32 \/ tw = L - Z.of_nat (length out))) by (subst tw; destruct (Z.ltb_spec 32 (L - Z.of_nat (length out))); lia).
    clearbody tw. assert ((tw <=? 0) || (32 <? tw) = false) as -> by (apply orb_false_iff; split; [apply Z.leb_gt|apply Z.ltb_ge]; lia).
    replace (S n + c)%nat with (n + S c)%nat by lia. apply IH; [right; reflexivity|lia| |]; rewrite app_length, firstn_length; lia.
Qed.

Lemma blocks L : 1 <= L <= 8160 -> let N := (L + 31) / 32 in 1 <= N <= 255 /\ 32 * (N - 1) < L <= 32 * N.
Proof. intros H N. pose proof (Z.div_mod (L + 31) 32 ltac:(discriminate)). pose proof (Z.mod_pos_bound (L + 31) 32 ltac:(reflexivity)). fold N in H0. clearbody N. lia. Qed.

(** whatever fails, hkdf256_expand either reads through a null pointer or returns 0 with L bytes written and both blocks freed *)
Lemma h_expand_any okm prk info h : 1 <= Z.of_nat (length okm) <= 8160 ->
  h_expand ok u_T okm prk info h = NullAccess \/
  exists o h', h_expand ok u_T okm prk info h = Res (0, o) h' /\ live h' = live h /\ length o = length okm /\ bytes o.
Proof.
  intros HL. unfold h_expand. cbv zeta. assert (255 * 32 <? Z.of_nat (length okm) = false) as -> by (apply Z.ltb_ge; lia).
  destruct (blocks _ HL) as [N1 N2]. cbv zeta in N1, N2. set (N := (Z.of_nat (length okm) + 31) / 32) in *. clearbody N.
  unfold indet. destruct h as [c l]. cbn [calls]. unfold malloc. cbn [calls live].
  assert ((N <? 1) || (255 <? N) = false) as EN by (apply orb_false_iff; split; apply Z.ltb_ge; lia).
  destruct (HT c) as [BT LT].
  assert (X : forall p1 p2, distinct p1 p2 -> forall c', 
    (r <~ h_expand_loop ok (Z.to_nat N) 1 (Z.of_nat (length okm)) (firstn 32 prk) info (u_T c) p1 p2 [] ;; ret (fst r, snd r ++ skipn (length (snd r)) okm)) (mkHeap c' (opt p2 ++ opt p1 ++ l)) = NullAccess \/
    exists o h', (r <~ h_expand_loop ok (Z.to_nat N) 1 (Z.of_nat (length okm)) (firstn 32 prk) info (u_T c) p1 p2 [] ;; ret (fst r, snd r ++ skipn (length (snd r)) okm)) (mkHeap c' (opt p2 ++ opt p1 ++ l)) = Res (0, o) h'
      /\ live h' = l /\ length o = length okm /\ bytes o).
  { intros p1 p2 D c'. destruct (loop_any (Z.of_nat (length okm)) (firstn 32 prk) info p1 p2 l D (Z.to_nat N) 1 (u_T c) [] c' BT LT (Forall_nil _) ltac:(cbn [length]; lia) ltac:(cbn [length]; lia)) as [E|(o & E & Lo & Bo)]; rewrite E.
    - left. reflexivity.
    - right. exists o, (mkHeap (Z.to_nat N + c') l). cbn [fst snd ret]. rewrite skipn_all2 by lia. rewrite app_nil_r. unfold ret. repeat (split; [reflexivity||lia|]). exact Bo. }
  destruct (ok c); cbn [calls live]; destruct (ok (S c)); cbn [calls live]; rewrite EN.
  - apply (X (Some c) (Some (S c))). cbn [distinct]. lia.
  - apply (X (Some c) None). exact I.
  - apply (X None (Some (S c))). exact I.
  - apply (X None None). exact I.
Qed.

Lemma expand_loop_len prk info L : forall n i T out, 1 <= i -> 0 <= L - Z.of_nat (length out) -> 32 * (Z.of_nat n - 1) < L - Z.of_nat (length out) <= 32 * Z.of_nat n ->
  fst (expand_loop n i L prk info T out) = 0 /\ Z.of_nat (length (snd (expand_loop n i L prk info T out))) = L.
Proof.
  induction n as [|n IH]; intros i T out I P R; cbn [expand_loop].
  - assert (E : Z.of_nat (length out) = L) by lia. rewrite E, Z.eqb_refl. auto.
  - set (t := if i =? 1 then _ else _). assert (Lt : length t = 32%nat) by (subst t; destruct (i =? 1); apply hmac_any). clearbody t. cbv zeta.
    set (tw := if 32 <? _ then _ else _).
    assert (Tw : 1 <= tw <= 32 /\ tw <= L - Z.of_nat (length out) /\ (tw = 32 \/ tw = L - Z.of_nat (length out))) by (subst tw; destruct (Z.ltb_spec 32 (L - Z.of_nat (length out))); lia).
    clearbody tw. assert ((tw <=? 0) || (32 <? tw) = false) as -> by (apply orb_false_iff; split; [apply Z.leb_gt|apply Z.ltb_ge]; lia).
    apply IH; [lia| |]; rewrite app_length, firstn_length; lia.
Qed.
Lemma h_expand_ok okm prk info h : 1 <= Z.of_nat (length okm) <= 8160 -> (forall k, ok k = true) ->
  h_expand ok u_T okm prk info h = Res (hkdf256_expand (Z.of_nat (length okm)) prk info) (mkHeap (Z.to_nat ((Z.of_nat (length okm) + 31) / 32) + (2 + calls h)) (live h)).
Proof.
  intros HL K. unfold h_expand, hkdf256_expand. cbv zeta. assert (255 * 32 <? Z.of_nat (length okm) = false) as -> by (apply Z.ltb_ge; lia).
  destruct (blocks _ HL) as [N1 N2]. cbv zeta in N1, N2. set (N := (Z.of_nat (length okm) + 31) / 32) in *. clearbody N.
  unfold indet. destruct h as [c l]. cbn [calls live]. unfold malloc. cbn [calls live]. rewrite ?K. cbn [calls live]. rewrite ?K. cbn [calls live].
  assert ((N <? 1) || (255 <? N) = false) as -> by (apply orb_false_iff; split; apply Z.ltb_ge; lia).
  rewrite (loop_ok _ _ _ c (S c) l ltac:(lia) K (Z.to_nat N) 1 (u_T c) [] [] (S (S c))) by (cbn [length]; lia || (left; reflexivity)).
  destruct (expand_loop_len (firstn 32 prk) info (Z.of_nat (length okm)) (Z.to_nat N) 1 [] [] ltac:(lia) ltac:(cbn [length]; lia) ltac:(cbn [length]; lia)) as [E1 E2].
  unfold ret. destruct (expand_loop _ _ _ _ _ _ _) as [code o]. cbn [fst snd] in *. rewrite skipn_all2 by lia. rewrite app_nil_r. reflexivity.
Qed.
Lemma h_ee_any okm key salt info h : 1 <= Z.of_nat (length okm) <= 8160 -> bytes okm ->
  h_extract_expand ok u_T u_prk okm key salt info h = NullAccess \/
  exists r h', h_extract_expand ok u_T u_prk okm key salt info h = Res r h' /\ live h' = live h /\ length (snd r) = length okm /\ bytes (snd r).
Proof.
  intros HL B. unfold h_extract_expand, indet. rewrite h_hmac_eq. destruct (ok (calls h)); cbn [fst snd].
  - change (negb (0 =? 0)) with false. cbv iota. destruct (h_expand_any okm (hkdf256_hmac key salt) info (mkHeap (S (calls h)) (live h)) HL) as [->|(o & h' & -> & E & Lo & Bo)]; [left; reflexivity|].
    right. exists (0, o), h'. auto.
  - change (negb (-1 =? 0)) with true. cbv iota. right. exists (-1, okm), (mkHeap (S (calls h)) (live h)). cbn [fst snd live]. auto.
Qed.
Lemma h_ee_ok okm key salt info h : 1 <= Z.of_nat (length okm) <= 8160 -> (forall k, ok k = true) ->
  h_extract_expand ok u_T u_prk okm key salt info h = Res (hkdf256_extract_expand (Z.of_nat (length okm)) key salt info) (mkHeap (Z.to_nat ((Z.of_nat (length okm) + 31) / 32) + (3 + calls h)) (live h)).
Proof.
  intros HL K. unfold h_extract_expand, indet. rewrite h_hmac_eq, K. cbn [fst snd]. change (negb (0 =? 0)) with false. cbv iota.
  rewrite (h_expand_ok okm _ info _ HL K). reflexivity.
Qed.
(** extract fails: the output buffer keeps its contents *)
Lemma h_ee_fail okm key salt info h : ok (calls h) = false -> h_extract_expand ok u_T u_prk okm key salt info h = Res (-1, okm) (mkHeap (S (calls h)) (live h)).
Proof. intros F. unfold h_extract_expand, indet. rewrite h_hmac_eq, F. reflexivity. Qed.

Lemma reduce_bytes okm : bytes okm -> length okm = 48%nat -> exists sk, reduce (fromBytesBE 6 okm) = Ok sk /\ key sk /\ val sk = be_int okm mod order.
Proof.
  intros B L. destruct (reduce_ok (fromBytesBE 6 okm)) as (r & E & Kr & V).
  - apply fromBytesBE_words; [exact B|lia].
  - rewrite fromBytesBE_length. lia.
  - exists r. rewrite V, fromBytesBE_ok by (exact B || lia). auto.
Qed.
Lemma zero4 sk : key sk -> scalar_equal sk [0; 0; 0; 0] = (val sk =? 0).
Proof.
  intros [Kw Kl]. rewrite scalar_equal_ok; [reflexivity|exact Kw| |rewrite Kl; reflexivity]. apply wordsb_ok. reflexivity.
Qed.
Lemma sk_loop_any ikm : forall fuel salt okm h, bytes okm -> length okm = 48%nat ->
  h_sk_loop ok u_T u_prk fuel ikm salt okm h = NullAccess \/
  exists r h', h_sk_loop ok u_T u_prk fuel ikm salt okm h = Res (Ok r) h' /\ live h' = live h /\ (forall sk, r = Some sk -> key sk /\ 1 <= val sk < order).
Proof.
  induction fuel as [|fuel IH]; intros salt okm h B L; cbn [h_sk_loop].
  - right. exists None, h. split; [reflexivity|]. split; [reflexivity|]. discriminate.
  - destruct (h_ee_any okm ikm salt [0; 48] h ltac:(lia) B) as [->|(r & h' & -> & E & Lr & Br)]; [left; reflexivity|].
    destruct (reduce_bytes (snd r) Br ltac:(lia)) as (sk & -> & Ksk & V). cbv zeta.
    destruct (scalar_equal sk [0; 0; 0; 0]) eqn:Q; cbn [negb].
    + destruct (IH (sha256 [salt]) (snd r) h' Br ltac:(lia)) as [->|(r' & h'' & -> & E' & P)]; [left; reflexivity|]. right. exists r', h''. rewrite E'. auto.
    + right. exists (Some sk), h'. unfold ret. split; [reflexivity|]. split; [exact E|]. intros s [= <-]. split; [exact Ksk|].
      rewrite (zero4 sk Ksk) in Q. apply Z.eqb_neq in Q.
      pose proof (Z.mod_pos_bound (be_int (snd r)) order ltac:(reflexivity)). lia.
Qed.
Lemma sk_loop_ok ikm : (forall k, ok k = true) -> forall fuel salt okm h, bytes okm -> length okm = 48%nat ->
  exists h', h_sk_loop ok u_T u_prk fuel ikm salt okm h = Res (sk_loop fuel ikm salt) h' /\ live h' = live h.
Proof.
  intros K. induction fuel as [|fuel IH]; intros salt okm h B L; cbn [h_sk_loop sk_loop].
  - exists h. auto.
  - pose proof (h_ee_any okm ikm salt [0; 48] h ltac:(lia) B) as A. rewrite (h_ee_ok okm ikm salt [0; 48] h ltac:(lia) K) in A |- *. destruct A as [A|(r & h' & A & _ & Lr & Br)]; [discriminate|].
    injection A as A _. rewrite L in *. change (Z.of_nat 48) with 48 in *. rewrite A. cbv zeta. destruct (reduce (fromBytesBE 6 (snd r))) as [sk| |]; cbn [obind].
    + destruct (negb (scalar_equal sk [0; 0; 0; 0])); [eexists; split; reflexivity|]. destruct (IH (sha256 [salt]) (snd r) (mkHeap (Z.to_nat ((48 + 31) / 32) + (3 + calls h)) (live h)) Br ltac:(lia)) as (h'' & -> & E). exists h''. auto.
    + eexists; split; reflexivity.
    + eexists; split; reflexivity.
Qed.
Lemma secret_key_any fuel okm seed h : bytes okm -> length okm = 48%nat ->
  h_secret_key ok u_T u_prk fuel okm seed h = NullAccess \/
  exists r h', h_secret_key ok u_T u_prk fuel okm seed h = Res (Ok r) h' /\ (r <> None -> live h' = live h).
Proof.
  intros B L. unfold h_secret_key. destruct (_ <? 32); [right; exists (Some [0; 0; 0; 0]), h; split; reflexivity|].
  unfold malloc. destruct (ok (calls h)); cbn [need]; [|left; reflexivity].
  destruct (sk_loop_any (seed ++ [0]) fuel [66; 76; 83; 45; 83; 73; 71; 45; 75; 69; 89; 71; 69; 78; 45; 83; 65; 76; 84; 45] okm (mkHeap (S (calls h)) (calls h :: live h)) B L) as [->|(r & h' & -> & E & _)]; [left; reflexivity|].
  right. cbn [live] in E. destruct r as [sk|].
  - unfold free. rewrite E, del_head. unfold ret. eexists _, _. split; [reflexivity|]. intros _. reflexivity.
  - exists None, h'. split; [reflexivity|congruence].
Qed.
Lemma secret_key_alloc_ok fuel okm seed h : (forall k, ok k = true) -> bytes okm -> length okm = 48%nat ->
  exists h', h_secret_key ok u_T u_prk fuel okm seed h = Res (secret_key fuel seed) h' /\ (forall sk, secret_key fuel seed = Ok (Some sk) -> live h' = live h).
Proof.
  intros K B L. unfold h_secret_key, secret_key. destruct (_ <? 32); [exists h; split; reflexivity|].
  unfold malloc. rewrite K. cbn [need].
  destruct (sk_loop_ok (seed ++ [0]) K fuel [66; 76; 83; 45; 83; 73; 71; 45; 75; 69; 89; 71; 69; 78; 45; 83; 65; 76; 84; 45] okm (mkHeap (S (calls h)) (calls h :: live h)) B L) as (h' & -> & E).
  cbn [live] in E. destruct (sk_loop _ _ _) as [[sk|]| |].
  - unfold free. rewrite E, del_head. unfold ret. eexists. split; reflexivity.
  - exists h'. split; [reflexivity|discriminate].
  - exists h'. split; [reflexivity|discriminate].
  - exists h'. split; [reflexivity|discriminate].
Qed.
(** the allocation of ikmHkdf succeeds, that of hkdf256_extract fails *)
Lemma secret_key_fail fuel okm seed h : (32 <= length seed)%nat -> bytes okm -> length okm = 48%nat -> be_int okm mod order <> 0 ->
  ok (calls h) = true -> ok (S (calls h)) = false ->
  exists sk h', h_secret_key ok u_T u_prk (S fuel) okm seed h = Res (Ok (Some sk)) h' /\ key sk /\ val sk = be_int okm mod order.
Proof.
  intros Ls B L NZ K1 K2. unfold h_secret_key. assert (Z.of_nat (length seed) <? 32 = false) as -> by (apply Z.ltb_ge; lia).
  unfold malloc. rewrite K1. cbn [need h_sk_loop]. rewrite h_ee_fail by exact K2. cbn [snd].
  destruct (reduce_bytes okm B L) as (sk & -> & Ksk & V). cbv zeta.
  destruct (scalar_equal sk [0; 0; 0; 0]) eqn:Q.
  - exfalso. rewrite (zero4 sk Ksk) in Q. apply Z.eqb_eq in Q. apply NZ. congruence.
  - cbn [negb ret]. unfold free, ret. cbn [live calls]. rewrite del_head. eexists _, _. split; [reflexivity|]. auto.
Qed.
Lemma ikm_any l ikm salt h : bytes l -> Z.of_nat (length l) = 8160 ->
  h_ikm_to_lamport_sk ok u_T u_prk l ikm salt h = NullAccess \/ exists o h', h_ikm_to_lamport_sk ok u_T u_prk l ikm salt h = Res o h' /\ live h' = live h.
Proof.
  intros B L. unfold h_ikm_to_lamport_sk. destruct (h_ee_any l ikm salt [] h ltac:(rewrite L; lia) B) as [->|(r & h' & -> & E & _)]; [left; reflexivity|].
  right. exists (snd r), h'. split; [reflexivity|exact E].
Qed.
Lemma ikm_ok l ikm salt h : (forall k, ok k = true) -> Z.of_nat (length l) = 8160 ->
  exists h', h_ikm_to_lamport_sk ok u_T u_prk l ikm salt h = Res (ikm_to_lamport_sk ikm salt) h' /\ live h' = live h.
Proof.
  intros K L. unfold h_ikm_to_lamport_sk. rewrite h_ee_ok by (rewrite ?L; lia || exact K). rewrite L. eexists. split; reflexivity.
Qed.
Lemma lamport_any l0 l1 sk index h : bytes l0 -> bytes l1 -> Z.of_nat (length l0) = 8160 -> Z.of_nat (length l1) = 8160 ->
  h_lamport_pk ok u_T u_prk l0 l1 sk index h = NullAccess \/ exists pk h', h_lamport_pk ok u_T u_prk l0 l1 sk index h = Res pk h' /\ live h' = live h /\ length pk = 32%nat.
Proof.
  intros B0 B1 L0 L1. unfold h_lamport_pk. cbv zeta.
  destruct (ikm_any l0 (toBytesBE sk) (index_bytes index) h B0 L0) as [->|(o0 & h' & -> & E)]; [left; reflexivity|].
  destruct (ikm_any l1 (map (fun b => Z.lxor b 0xff) (toBytesBE sk)) (index_bytes index) h' B1 L1) as [->|(o1 & h'' & -> & E')]; [left; reflexivity|].
  right. eexists _, h''. split; [reflexivity|]. split; [congruence|]. apply sha_any.
Qed.
Lemma lamport_alloc_ok l0 l1 sk index h : (forall k, ok k = true) -> Z.of_nat (length l0) = 8160 -> Z.of_nat (length l1) = 8160 ->
  exists h', h_lamport_pk ok u_T u_prk l0 l1 sk index h = Res (parent_sk_to_lamport_pk sk index) h' /\ live h' = live h.
Proof.
  intros K L0 L1. unfold h_lamport_pk. cbv zeta.
  destruct (ikm_ok l0 (toBytesBE sk) (index_bytes index) h K L0) as (h' & -> & E).
  destruct (ikm_ok l1 (map (fun b => Z.lxor b 0xff) (toBytesBE sk)) (index_bytes index) h' K L1) as (h'' & -> & E').
  exists h''. split; [reflexivity|congruence].
Qed.
Lemma derive_any fuel l0 l1 okm sk index h : bytes l0 -> bytes l1 -> Z.of_nat (length l0) = 8160 -> Z.of_nat (length l1) = 8160 -> bytes okm -> length okm = 48%nat ->
  h_derive_child_sk ok u_T u_prk fuel l0 l1 okm sk index h = NullAccess \/
  exists r h', h_derive_child_sk ok u_T u_prk fuel l0 l1 okm sk index h = Res (Ok r) h' /\ (r <> None -> live h' = live h).
Proof.
  intros B0 B1 L0 L1 B L. unfold h_derive_child_sk. destruct (lamport_any l0 l1 sk index h B0 B1 L0 L1) as [->|(pk & h' & -> & E & _)]; [left; reflexivity|].
  destruct (secret_key_any fuel okm pk h' B L) as [->|(r & h'' & -> & E')]; [left; reflexivity|]. right. exists r, h''. split; [reflexivity|]. intros R. rewrite (E' R). exact E.
Qed.
Lemma derive_alloc_ok fuel l0 l1 okm sk index h : (forall k, ok k = true) -> Z.of_nat (length l0) = 8160 -> Z.of_nat (length l1) = 8160 -> bytes okm -> length okm = 48%nat ->
  exists h', h_derive_child_sk ok u_T u_prk fuel l0 l1 okm sk index h = Res (derive_child_sk fuel sk index) h' /\ (forall k, derive_child_sk fuel sk index = Ok (Some k) -> live h' = live h).
Proof.
  intros K L0 L1 B L. unfold h_derive_child_sk, derive_child_sk. destruct (lamport_alloc_ok l0 l1 sk index h K L0 L1) as (h' & -> & E).
  destruct (secret_key_alloc_ok fuel okm (parent_sk_to_lamport_pk sk index) h' K B L) as (h'' & -> & E'). exists h''. split; [reflexivity|]. intros k Ek. rewrite (E' k Ek). exact E.
Qed.
End Heap.
