(** Proofs about ModelMisc.v. *)
From Coq Require Import ZArith List Bool Lia.
From Verif Require Import ModelWord ModelScalar PortArith ModelMem ModelMisc SpecBytes ScalarProof ScalarProof2 CarryProof MaddProof MemProof MemHex.
Import ListNotations.
Local Open Scope Z_scope.

Lemma put_hex_byte v : 0 <= v < 256 -> setw 2 (put_hex 8 v) = [hexchar (v / 16); hexchar (v mod 16)].
Proof.
  intros H. cbn [put_hex]. destruct (Z.ltb_spec v 16).
  - rewrite Z.div_small, Z.mod_small by lia. reflexivity.
  - assert (v / 16 <? 16 = true) as -> by (apply Z.ltb_lt, Z.div_lt_upper_bound; lia). reflexivity.
Qed.
Lemma toString_loop d : forall n i pre post s, d = pre ++ post -> Z.of_nat (length pre) = i -> (n <= length post)%nat -> bytes d ->
  for_up n i (fun i s => d <- rd d i ;; Some (s ++ setw 2 (put_hex 8 d))) s =
  Some (s ++ flat_map (fun c => [hexchar (Z.shiftr (Z.land c 0xF0) 4); hexchar (Z.land c 0x0F)]) (firstn n post)).
Proof.
  induction n as [|n IH]; intros i pre post s E L N B; cbn [for_up firstn flat_map].
  - rewrite app_nil_r. reflexivity.
  - destruct post as [|x post]; [cbn [length] in N; lia|]. rewrite E at 1. rewrite rd_mid by lia.
    assert (Bx : 0 <= x < 256). { unfold bytes in B. rewrite E in B. apply Forall_app in B. destruct B as [_ B]. inversion B; assumption. }
    rewrite (IH (i + 1) (pre ++ [x]) post); try assumption.
    + cbn [firstn flat_map]. rewrite put_hex_byte, hi_nibble, lo_nibble by assumption. rewrite <- app_assoc. reflexivity.
    + rewrite <- app_assoc. exact E.
    + rewrite app_length. cbn [length]. lia.
    + cbn [length] in N. lia.
Qed.
Lemma sha_toString_ok d : bytes d -> length d = 32%nat -> exists s, sha_toString d = Some s /\ bytesToHex d = 48 :: 120 :: s.
Proof.
  intros B L. eexists. split.
  - unfold sha_toString. apply (toString_loop d 32 0 [] d); [reflexivity|reflexivity|lia|exact B].
  - rewrite firstn_all2 by lia. reflexivity.
Qed.
Lemma madd_ok a b t u v : word a -> word b -> word t -> word u -> word v ->
  let '(t', u', v') := madd a b t u v in
  word t' /\ word u' /\ word v' /\
  (((t' * W + u') * W + v' - ((t * W + u) * W + v + a * b)) mod (W * (W * W)) = 0 <-> ~ (u = W - 1 /\ W <= (a * b) mod W + v)).
Proof.
  intros Ha Hb Ht Hu Hv. unfold madd, Mul64, Add64. set (hi := a * b / W). set (lo := (a * b) mod W).
  assert (HW : W = 18446744073709551616) by reflexivity.
  assert (Hlo : word lo) by (apply Z.mod_pos_bound; lia).
  assert (Hhi : 0 <= hi <= W - 2).
  { unfold word in *. subst hi. split; [apply Z.div_pos; nia|]. assert (a * b / W < W - 1); [apply Z.div_lt_upper_bound; nia|lia]. }
  assert (Eab : a * b = W * hi + lo) by (subst hi lo; apply Z.div_mod; lia).
  rewrite Eab. clearbody hi lo. clear Eab. unfold word in *.
  assert (M : forall x, 0 <= x < 2 * W -> x mod W = if x <? W then x else x - W).
  { intros x Hx. destruct (Z.ltb_spec x W); [apply Z.mod_small; lia|]. symmetry. apply (Z.mod_unique x W 1); lia. }
  replace (((lo + v) mod W + 0) mod W) with ((lo + v) mod W) by (rewrite Z.add_0_r, Z.mod_mod by lia; reflexivity).
  rewrite (M (lo + v)) by lia.
  assert (P : 0 < W * W) by lia.
  assert (K : forall k e, (e + k * (W * (W * W))) mod (W * (W * W)) = e mod (W * (W * W))) by (intros; apply Z.mod_add; lia).
  destruct (Z.ltb_spec (lo + v) W) as [C|C].
  - assert (lo + v <? lo = false) as -> by (apply Z.ltb_ge; lia). rewrite !Z.add_0_r, (Z.mod_mod (hi + u)) by lia.
    rewrite (M (hi + u)) by lia. destruct (Z.ltb_spec (hi + u) W) as [D|D].
    + assert (hi + u <? hi = false) as -> by (apply Z.ltb_ge; lia). rewrite ?Z.add_0_r, ?Z.mod_mod, ?(Z.mod_small t) by lia.
      split; [lia|]. split; [lia|]. split; [lia|]. split; [intros _ ?; lia|intros _].
      replace (_ - _) with 0 by ring. reflexivity.
    + assert (hi + u - W <? hi = true) as -> by (apply Z.ltb_lt; lia). rewrite ?Z.add_0_r, (Z.mod_small t), (M (t + 1)) by lia.
      split; [destruct (Z.ltb_spec (t + 1) W); lia|]. split; [lia|]. split; [lia|]. split; [intros _ ?; lia|intros _].
      destruct (Z.ltb_spec (t + 1) W); [replace (_ - _) with 0 by ring; reflexivity|replace (_ - _) with (0 + (-1) * (W * (W * W))) by ring; rewrite K; reflexivity].
  - assert (lo + v - W <? lo = true) as -> by (apply Z.ltb_lt; lia).
    rewrite (Zplus_mod_idemp_l (hi + u) 1). rewrite (M (hi + u + 1)) by lia. destruct (Z.ltb_spec (hi + u + 1) W) as [D|D].
    + assert (hi + u + 1 <? hi = false) as -> by (apply Z.ltb_ge; lia). rewrite ?Z.add_0_r, ?Z.mod_mod, ?(Z.mod_small t) by lia.
      split; [lia|]. split; [lia|]. split; [lia|]. split.
      * intros _ [U _]. lia.
      * intros _. replace (_ - _) with 0 by ring. reflexivity.
    + destruct (Z.eq_dec u (W - 1)) as [U|U].
      * assert (hi + u + 1 - W <? hi = false) as -> by (apply Z.ltb_ge; lia). rewrite ?Z.add_0_r, ?Z.mod_mod, ?(Z.mod_small t) by lia.
        split; [lia|]. split; [lia|]. split; [lia|]. split.
        -- intros X. exfalso. replace (_ - _) with (W * (W * W) - W * W + (-1) * (W * (W * W))) in X by (subst u; ring). rewrite K, Z.mod_small in X by (rewrite HW; lia). rewrite HW in X. discriminate X.
        -- intros X. exfalso. apply X. split; [exact U|lia].
      * assert (hi + u + 1 - W <? hi = true) as -> by (apply Z.ltb_lt; lia). rewrite ?Z.add_0_r, (Z.mod_small t), (M (t + 1)) by lia.
        split; [destruct (Z.ltb_spec (t + 1) W); lia|]. split; [lia|]. split; [lia|]. split; [intros _ [? _]; lia|intros _].
        destruct (Z.ltb_spec (t + 1) W); [replace (_ - _) with 0 by ring; reflexivity|replace (_ - _) with (0 + (-1) * (W * (W * W))) by ring; rewrite K; reflexivity].
Qed.
