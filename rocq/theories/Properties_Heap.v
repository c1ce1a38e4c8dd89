(** C64: memory allocation in the key derivation (malloc, free, failing allocations).
    [ok n]: the n-th call of malloc succeeds; [live h]: the blocks allocated and not freed.  The contents of uninitialised local
    arrays (u_T, u_prk, okm, l0, l1) are arbitrary. *)
From Coq Require Import ZArith List Bool Lia.
From Verif Require Import SpecBytes SpecField SpecHash ModelWord ModelScalar ModelSha ModelKdf ModelKeys ModelHeap BytesProof ScalarProof ShaProof KdfProof KeysProof HeapProof Properties_Hash Properties_Keys.
Import ListNotations.
Local Open Scope Z_scope.

Definition byte_arrays (n : nat) (u : nat -> list Z) : Prop := forall i, bytes (u i) /\ length (u i) = n.
(** hkdf256_hmac: -1 and an untouched output if its allocation fails, else 0 and the MAC; it never leaks *)
Theorem C64_hmac : forall ok mac input key h, bytes input -> bytes key ->
  exists h', h_hmac ok mac input key h = Res (if ok (calls h) then (0, HMAC key input) else (-1, mac)) h' /\ live h' = live h.
Proof. intros ok mac input k h Bi Bk. rewrite <- (hmac_ok input k Bi Bk). eexists. split; [apply h_hmac_eq|reflexivity]. Qed.
(** hkdf256_expand for 1 to 8160 bytes: whichever allocations fail, it either writes through a null pointer or reports success with both
    buffers freed; it never frees a block twice *)
Theorem C64_expand_any : forall ok u_T okm prk info h, byte_arrays 32 u_T -> 1 <= Z.of_nat (length okm) <= 8160 ->
  h_expand ok u_T okm prk info h = NullAccess \/
  exists out h', h_expand ok u_T okm prk info h = Res (0, out) h' /\ live h' = live h /\ length out = length okm.
Proof.
  intros ok u_T okm prk info h HT L. destruct (h_expand_any ok u_T HT okm prk info h L) as [E|(o & h' & E & E1 & E2 & _)]; [left; exact E|]. right. exists o, h'. auto.
Qed.
(** with all allocations succeeding the output is that of RFC 5869 *)
Theorem C64_expand : forall ok u_T okm prk info h, (forall n, ok n = true) -> 1 <= Z.of_nat (length okm) <= 8160 -> bytes prk -> length prk = 32%nat -> bytes info ->
  exists h', h_expand ok u_T okm prk info h = Res (0, HKDF_Expand prk info (length okm)) h' /\ live h' = live h.
Proof.
  intros ok u_T okm prk info h K L Bp Lp Bi. rewrite (h_expand_ok ok u_T okm prk info h L K), (expand_ok _ prk info Bp Bi Lp L), Nat2Z.id. eexists. split; reflexivity.
Qed.
(** success does not mean that the output was computed: if the third allocation (in hkdf256_hmac) fails, up to 32 uninitialised bytes are returned with code 0 *)
Theorem C64_expand_failure : forall ok u_T okm prk info h, byte_arrays 32 u_T -> 1 <= Z.of_nat (length okm) <= 32 ->
  ok (calls h) = true -> ok (S (calls h)) = true -> ok (S (S (calls h))) = false ->
  exists h', h_expand ok u_T okm prk info h = Res (0, firstn (length okm) (u_T (calls h))) h' /\ live h' = live h.
Proof.
  intros ok u_T okm prk info [c l] HT L K1 K2 K3. cbn [calls] in K1, K2, K3. unfold h_expand. cbv zeta. rewrite (proj2 (Z.ltb_ge (255 * 32) _)) by lia.
  assert (E : (Z.of_nat (length okm) + 31) / 32 = 1) by (symmetry; apply (Z.div_unique _ 32 1 (Z.of_nat (length okm) - 1)); lia). rewrite E.
  change ((1 <? 1) || (255 <? 1)) with false. cbv iota. unfold indet, malloc. cbn [calls live]. rewrite K1. cbn [calls live]. rewrite K2. cbn [calls live].
  change (Z.to_nat 1) with 1%nat. cbn [h_expand_loop]. change (1 =? 1) with true. cbv iota. cbn [need]. rewrite h_hmac_eq. cbn [calls live]. rewrite K3. cbn [snd length].
  rewrite Z.sub_0_r. assert ((if 32 <? Z.of_nat (length okm) then 32 else Z.of_nat (length okm)) = Z.of_nat (length okm)) as -> by (destruct (Z.ltb_spec 32 (Z.of_nat (length okm))); lia).
  assert ((Z.of_nat (length okm) <=? 0) || (32 <? Z.of_nat (length okm)) = false) as -> by (apply orb_false_iff; split; [apply Z.leb_gt|apply Z.ltb_ge]; lia).
  rewrite Nat2Z.id. cbn [app]. destruct (free_both (Some c) (Some (S c)) l (S (S (S c))) ltac:(cbn [distinct]; lia)) as [F1 F2]. cbn [opt app] in F1, F2. rewrite F1, F2.
  destruct (HT c) as [_ LT]. unfold ret. cbn [fst snd]. rewrite !firstn_length, LT. rewrite Nat.min_l by lia. rewrite Z.eqb_refl, skipn_all, app_nil_r. eexists. split; reflexivity.
Qed.
Theorem C64_expand_success_refuted : ~ (forall ok u_T okm prk info h out h', byte_arrays 32 u_T -> 1 <= Z.of_nat (length okm) <= 8160 -> bytes prk -> length prk = 32%nat -> bytes info ->
  h_expand ok u_T okm prk info h = Res (0, out) h' -> out = HKDF_Expand prk info (length okm)).
Proof.
  intros A.
  assert (X : forall b, byte b -> [b] = HKDF_Expand (repeat 0 32) [] 1).
  { intros b Hb. assert (HT : byte_arrays 32 (fun _ => repeat b 32)) by (intros i; split; [apply Forall_forall; intros x Hx; apply repeat_spec in Hx; subst; exact Hb|reflexivity]).
    destruct (C64_expand_failure (fun n => negb (Nat.eqb n 2)) (fun _ => repeat b 32) [0] (repeat 0 32) [] (mkHeap 0 []) HT ltac:(cbn [length]; lia) eq_refl eq_refl eq_refl) as (h' & E & _).
    exact (A _ _ [0] (repeat 0 32) [] _ _ h' HT ltac:(cbn [length]; lia) ltac:(apply bytes_repeat0) eq_refl (Forall_nil _) E). }
  assert (B0 : byte 0) by (split; [discriminate|reflexivity]). assert (B1 : byte 1) by (split; [discriminate|reflexivity]).
  pose proof (X 0 B0) as E0. rewrite <- (X 1 B1) in E0. discriminate E0.
Qed.
(** asking for 0 bytes leaks both buffers *)
Theorem C64_expand_leak : forall ok u_T prk info h, (forall n, ok n = true) ->
  exists h', h_expand ok u_T [] prk info h = Res (-3, []) h' /\ live h' = S (calls h) :: calls h :: live h.
Proof. intros ok u_T prk info [c l] K. unfold h_expand, indet, malloc. cbn. rewrite !K. cbn. rewrite ?K. cbn. eexists. split; reflexivity. Qed.

(** secret_key, any pattern of failures: a null pointer access, or a return without leak or double free (None: still looping) *)
Theorem C64_secret_key_any : forall ok u_T u_prk fuel okm seed h, byte_arrays 32 u_T -> bytes okm -> length okm = 48%nat ->
  h_secret_key ok u_T u_prk fuel okm seed h = NullAccess \/
  exists r h', h_secret_key ok u_T u_prk fuel okm seed h = Res (Ok r) h' /\ (r <> None -> live h' = live h).
Proof. intros ok u_T u_prk fuel okm seed h HT. exact (secret_key_any ok u_T u_prk HT fuel okm seed h). Qed.
(** without failures the key is that of C39, and nothing is leaked *)
Theorem C64_secret_key : forall ok u_T u_prk fuel okm seed h, byte_arrays 32 u_T -> bytes okm -> length okm = 48%nat -> (forall n, ok n = true) ->
  exists h', h_secret_key ok u_T u_prk fuel okm seed h = Res (secret_key fuel seed) h' /\ (forall sk, secret_key fuel seed = Ok (Some sk) -> live h' = live h).
Proof. intros ok u_T u_prk fuel okm seed h HT B L K. exact (secret_key_alloc_ok ok u_T u_prk HT fuel okm seed h K B L). Qed.
(** if the allocation in hkdf256_extract fails, the key is whatever the uninitialised buffer held, reduced: every value of 1 .. order - 1
    is obtained from some buffer, for every seed, and no error is reported *)
Theorem C64_secret_key_failure : forall ok u_T u_prk fuel seed h v, (32 <= length seed)%nat -> 1 <= v < order ->
  ok (calls h) = true -> ok (S (calls h)) = false ->
  exists okm sk h', bytes okm /\ length okm = 48%nat /\ h_secret_key ok u_T u_prk (S fuel) okm seed h = Res (Ok (Some sk)) h' /\ key sk /\ val sk = v.
Proof.
  intros ok u_T u_prk fuel seed h v Ls V K1 K2. exists (int_be 48 v).
  assert (B : be_int (int_be 48 v) = v) by (rewrite be_int_int_be by lia; apply Z.mod_small; split; [lia|]; eapply Z.lt_trans; [apply V|reflexivity]).
  assert (M : v mod order = v) by (apply Z.mod_small; lia).
  destruct (secret_key_fail ok u_T u_prk fuel (int_be 48 v) seed h Ls ltac:(apply int_be_bytes) ltac:(apply int_be_length) ltac:(rewrite B, M; lia) K1 K2) as (sk & h' & E & Ks & Vs).
  exists sk, h'. split; [apply int_be_bytes|]. split; [apply int_be_length|]. split; [exact E|]. split; [exact Ks|]. rewrite Vs, B. exact M.
Qed.
(** derive_child_sk (the vector of line 306 is not part of this heap) *)
Theorem C64_derive_any : forall ok u_T u_prk fuel l0 l1 okm sk index h, byte_arrays 32 u_T -> bytes l0 -> bytes l1 ->
  Z.of_nat (length l0) = 8160 -> Z.of_nat (length l1) = 8160 -> bytes okm -> length okm = 48%nat ->
  h_derive_child_sk ok u_T u_prk fuel l0 l1 okm sk index h = NullAccess \/
  exists r h', h_derive_child_sk ok u_T u_prk fuel l0 l1 okm sk index h = Res (Ok r) h' /\ (r <> None -> live h' = live h).
Proof. intros ok u_T u_prk fuel l0 l1 okm sk index h HT. exact (derive_any ok u_T u_prk HT fuel l0 l1 okm sk index h). Qed.
Theorem C64_derive : forall ok u_T u_prk fuel l0 l1 okm sk index h, byte_arrays 32 u_T -> (forall n, ok n = true) ->
  Z.of_nat (length l0) = 8160 -> Z.of_nat (length l1) = 8160 -> bytes okm -> length okm = 48%nat ->
  exists h', h_derive_child_sk ok u_T u_prk fuel l0 l1 okm sk index h = Res (derive_child_sk fuel sk index) h' /\ (forall k, derive_child_sk fuel sk index = Ok (Some k) -> live h' = live h).
Proof. intros ok u_T u_prk fuel l0 l1 okm sk index h HT K. exact (derive_alloc_ok ok u_T u_prk HT fuel l0 l1 okm sk index h K). Qed.
(** the first allocation fails: hkdf256_expand of 40 bytes writes through a null pointer; the fourth fails (second block): success is
    reported and the second block repeats the first *)
Example C64_example : forall prk,
  h_expand (fun n => negb (Nat.eqb n 0)) (fun _ => repeat 7 32) (repeat 0 40) prk [] (mkHeap 0 []) = NullAccess /\
  exists t h', h_expand (fun n => negb (Nat.eqb n 3)) (fun _ => repeat 7 32) (repeat 0 40) prk [] (mkHeap 0 []) = Res (0, t ++ firstn 8 t) h' /\ live h' = [].
Proof.
  intros prk. split; [reflexivity|]. exists (hkdf256_hmac [1] (firstn 32 prk)), (mkHeap 4 []). split; [|reflexivity].
  unfold h_expand. cbn [length repeat]. change (Z.of_nat 40) with 40. cbv zeta. change (255 * 32 <? 40) with false. cbv iota. change ((40 + 31) / 32) with 2. unfold indet, malloc. cbn [calls live Nat.eqb negb].
  change ((2 <? 1) || (255 <? 2)) with false. cbv iota. change (Z.to_nat 2) with 2%nat. cbn [h_expand_loop]. change (1 =? 1) with true. change (1 + 1 =? 1) with false. cbv iota. cbn [need].
  cbv beta iota. rewrite h_hmac_eq. cbn [calls live Nat.eqb negb snd app length]. change ((40 - Z.of_nat 0)) with 40. change (32 <? 40) with true. cbv iota. change ((32 <=? 0) || (32 <? 32)) with false. cbv iota.
  cbv beta iota. rewrite h_hmac_eq. cbn [calls live Nat.eqb negb snd]. set (t := hkdf256_hmac _ _). assert (Lt : length t = 32%nat) by apply hmac_any. change [u8 1] with [1] in t. fold t. clearbody t.
  rewrite firstn_all2 by (rewrite Lt; apply le_n). rewrite Lt. change (40 - Z.of_nat 32) with 8. change (32 <? 8) with false. cbv iota. change ((8 <=? 0) || (32 <? 8)) with false. cbv iota. change (Z.to_nat 8) with 8%nat.
  unfold free. cbn [live calls del Nat.eqb]. unfold ret. cbn [fst snd]. assert (L40 : length (t ++ firstn 8 t) = 40%nat) by (rewrite app_length, firstn_length, Lt; reflexivity).
  rewrite L40. change (Z.of_nat 40 =? 40) with true. cbv iota. rewrite skipn_all2 by (rewrite ?repeat_length; cbn [length]; lia). rewrite app_nil_r. reflexivity.
Qed.

Definition props_heap := (C64_hmac, C64_expand_any, C64_expand, C64_expand_failure, C64_expand_success_refuted, C64_expand_leak, C64_secret_key_any, C64_secret_key, C64_secret_key_failure, C64_derive_any, C64_derive).
Print Assumptions props_heap.
