(** Symbolic execution of the x86 model: tactics and arithmetic lemmas (proof support only). *)
From Coq Require Import ZArith List Lia.
From Verif Require Import ModelWord X86.
Import ListNotations.
Local Open Scope Z_scope.

Definition wp (is : list instr) (s : state) (Q : state -> Prop) : Prop :=
  match run is s with Some s' => Q s' | None => False end.

Lemma wp_cons : forall i is s Q,
  match step i s with Some s' => wp is s' Q | None => False end -> wp (i :: is) s Q.
Proof.
  intros i is s Q H. unfold wp in *. cbn [run]. destruct (step i s); [exact H|exact H].
Qed.
Lemma wp_nil : forall s (Q : state -> Prop), Q s -> wp [] s Q.
Proof. intros. exact H. Qed.
Lemma wp_app : forall a b s Q, wp a s (fun s' => wp b s' Q) -> wp (a ++ b) s Q.
Proof.
  induction a as [|i a IH]; intros b s Q H.
  - exact H.
  - cbn [app]. apply wp_cons. unfold wp in H. cbn [run] in H.
    destruct (step i s) as [s'|]; [|exact H].
    apply IH. exact H.
Qed.
Lemma wp_run : forall is s Q, wp is s Q -> exists s', run is s = Some s' /\ Q s'.
Proof.
  intros is s Q H. unfold wp in H. destruct (run is s) as [s'|]; [|contradiction].
  exists s'. split; [reflexivity|exact H].
Qed.
Lemma wp_mono : forall is s (P Q : state -> Prop), (forall s, P s -> Q s) -> wp is s P -> wp is s Q.
Proof. intros is s P Q H. unfold wp. destruct (run is s); auto. Qed.

Definition bit (v : Z) : Prop := 0 <= v <= 1.

Lemma Wpos : 0 < W. Proof. reflexivity. Qed.
Lemma word_lo : forall a, word (a mod W).
Proof. intros. apply Z.mod_pos_bound. reflexivity. Qed.

Lemma add_spec : forall a b c, word a -> word b -> bit c ->
  word (addlo a b c) /\ bit (addhi a b c) /\ addlo a b c + W * addhi a b c = a + b + c.
Proof.
  intros a b c Ha Hb Hc. unfold addlo, addhi, word, bit in *.
  assert (P : 0 < W) by reflexivity.
  pose proof (Z.div_mod (a + b + c) W ltac:(lia)).
  pose proof (Z.mod_pos_bound (a + b + c) W P).
  split; [lia|]. split; [|lia].
  split; [apply Z.div_pos; lia|].
  assert ((a + b + c) / W < 2) by (apply Z.div_lt_upper_bound; lia). lia.
Qed.
Lemma addlo_00 : forall c, bit c -> addlo 0 0 c = c.
Proof. intros c H. unfold addlo, bit, W in *. apply Z.mod_small. lia. Qed.
Lemma addhi_00 : forall c, bit c -> addhi 0 0 c = 0.
Proof. intros c H. unfold addhi, bit, W in *. apply Z.div_small. lia. Qed.
Lemma word_bit : forall c, bit c -> word c.
Proof. unfold word, bit, W. intros. lia. Qed.
Lemma sub_spec : forall a b c, word a -> word b -> bit c ->
  word (sublo a b c) /\ bit (subhi a b c) /\ sublo a b c - W * subhi a b c = a - b - c.
Proof.
  intros a b c Ha Hb Hc. unfold sublo, subhi, word, bit in *.
  assert (P : 0 < W) by reflexivity.
  pose proof (Z.div_mod (a - b - c) W ltac:(lia)).
  pose proof (Z.mod_pos_bound (a - b - c) W P).
  split; [lia|]. split; [|lia].
  assert ((a - b - c) / W < 1) by (apply Z.div_lt_upper_bound; lia).
  assert (-1 <= (a - b - c) / W) by (apply Z.div_le_lower_bound; lia). lia.
Qed.
Lemma mul_spec : forall a b, word a -> word b ->
  word (mullo a b) /\ 0 <= mulhi a b <= W - 2 /\ mullo a b + W * mulhi a b = a * b.
Proof.
  intros a b Ha Hb. unfold mullo, mulhi, word in *.
  assert (P : 0 < W) by reflexivity.
  pose proof (Z.div_mod (a * b) W ltac:(lia)).
  pose proof (Z.mod_pos_bound (a * b) W P).
  split; [lia|]. split; [|lia].
  assert (0 <= a * b) by (apply Z.mul_nonneg_nonneg; lia).
  split; [apply Z.div_pos; lia|].
  assert (a * b <= (W - 1) * (W - 1)) by (apply Z.mul_le_mono_nonneg; lia).
  assert (a * b / W < W - 1) by (apply Z.div_lt_upper_bound; unfold W in *; lia). lia.
Qed.
Lemma word_of_hi : forall h, 0 <= h <= W - 2 -> word h.
Proof. unfold word. intros. lia. Qed.

Lemma upd_same : forall m a v, upd m a v a = v.
Proof. intros. unfold upd. rewrite Z.eqb_refl. reflexivity. Qed.
Lemma upd_other : forall m a v b, b <> a -> upd m a v b = m b.
Proof. intros. unfold upd. destruct (Z.eqb_spec b a); [contradiction|reflexivity]. Qed.
Lemma upd_eq : forall m a v b, b = a -> upd m a v b = v.
Proof. intros. subst. apply upd_same. Qed.

Ltac side := first [ assumption | apply word_of_hi; assumption | apply word_bit; assumption
                   | (split; [discriminate | reflexivity]) | (split; discriminate) ].

(** Replace the 64-bit operations appearing in the goal by fresh variables with their equations. *)
Ltac abs1 :=
  match goal with
  | |- context [addlo 0 0 ?c] =>
      let H := fresh in
      assert (H : bit c) by side; rewrite ?(addlo_00 c H), ?(addhi_00 c H); clear H
  | |- context [addlo ?a ?b ?c] =>
      let H := fresh "E" in
      pose proof (add_spec a b c ltac:(side) ltac:(side) ltac:(side)) as H;
      revert H; generalize (addlo a b c) (addhi a b c);
      let s := fresh "s" in let k := fresh "c" in intros s k;
      let Hs := fresh "Ws" in let Hk := fresh "Bc" in intros (Hs & Hk & H)
  | |- context [sublo ?a ?b ?c] =>
      let H := fresh "E" in
      pose proof (sub_spec a b c ltac:(side) ltac:(side) ltac:(side)) as H;
      revert H; generalize (sublo a b c) (subhi a b c);
      let s := fresh "s" in let k := fresh "c" in intros s k;
      let Hs := fresh "Ws" in let Hk := fresh "Bc" in intros (Hs & Hk & H)
  | |- context [mullo ?a ?b] =>
      let H := fresh "E" in
      pose proof (mul_spec a b ltac:(side) ltac:(side)) as H;
      revert H; generalize (mullo a b) (mulhi a b);
      let s := fresh "lo" in let k := fresh "hi" in intros s k;
      let Hs := fresh "Ws" in let Hk := fresh "Wh" in intros (Hs & Hk & H)
  end.

Ltac stp :=
  apply wp_cons;
  cbn [step read write get set set_flags set_mem rax rbx rcx rdx rsi rdi rbp rsp
       r8 r9 r10 r11 r12 r13 r14 r15 cf ovf mem].
(** memory reads: [rd] resolves reads through updates; addresses are compared by [lia] *)
Ltac rd tac :=
  repeat match goal with
  | |- context [upd ?m ?a ?v ?b] =>
      first [ rewrite (upd_eq m a v b) by (clear; lia)
            | rewrite (upd_other m a v b) by tac ]
  end.
Ltac go tac := repeat (stp; rd tac; repeat abs1).

