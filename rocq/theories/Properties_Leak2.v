(** Property C74: fp::inverse reveals its argument through the branches of its loop, and g1::affine its Jacobian coordinates.
    [tinv] (ModelLeak.v) is the loop of fp::inverse with a log of the branch taken in each iteration. *)
From Coq Require Import ZArith List Lia Bool.
From Verif Require Import SpecField ModelWord ModelScalar ScalarProof ModelPrim ModelFp FpProof FpProof2 ModelTower ModelCurve ModelKeys
  KeysProof CurveInst CurveReps CurveBase X86 ModelLeak InvWide InvLeak.
Import ListNotations.
Local Open Scope Z_scope.

(** The logged loop has the outcome of the loop of fp::inverse; 0 is handled without entering it. *)
Theorem C74_loop : forall x, fst (tinv x) = if x =? 0 then None else inv_loop 768 modulus x 1 0 0.
Proof. intros x. unfold tinv, fp_isZero. destruct (x =? 0); [reflexivity|]. rewrite tinv_loop_eq. reflexivity. Qed.
(** Between 381 and 762 iterations (the range announced in the comment fp.cpp:236), none for 0. *)
Theorem C74_iterations : forall x, 0 <= x < modulus ->
  if x =? 0 then snd (tinv x) = [] else (381 <= length (snd (tinv x)) <= 762)%nat.
Proof.
  intros x H. destruct (Z.eqb_spec x 0) as [->|N]; [reflexivity|]. apply tinv_count. rewrite M_eq. lia.
Qed.
(** The branches determine the argument, reduced or not ... *)
Theorem C74_inverse_reveals : exists observer : list iop -> Z,
  forall x, 0 <= x < 2 ^ 384 -> observer (snd (tinv x)) = x.
Proof.
  exists read_inv. intros x H. change (2 ^ 384) with R384 in H. destruct (Z.eq_dec x 0) as [->|N]; [reflexivity|].
  destruct (inv_loop_total x ltac:(lia)) as (r & k & E & _). apply (tinv_reveals x (r, k)); [lia|].
  rewrite C74_loop. destruct (Z.eqb_spec x 0) as [|_]; [contradiction|exact E].
Qed.
(** ... so that two arguments are treated alike only when they are equal. *)
Theorem C74_inverse_inj : forall x y, 0 <= x < 2 ^ 384 -> 0 <= y < 2 ^ 384 -> (snd (tinv x) = snd (tinv y) <-> x = y).
Proof.
  intros x y Hx Hy. split; [|now intros ->]. destruct C74_inverse_reveals as [ob H]. intros E. rewrite <- (H x Hx), <- (H y Hy), E. reflexivity.
Qed.

(** affine: the result with the branches of the inversion gives back the Jacobian coordinates before normalisation. *)
Theorem C74_affine : forall p, fst (tg1_affine p) = g1_affine p.
Proof. exact tg1_affine_fst. Qed.
Theorem C74_affine_reveals : exists observer : g1 -> list iop -> g1,
  forall p, canon (jx p) -> canon (jy p) -> canon (jz p) -> observer (fst (tg1_affine p)) (snd (tg1_affine p)) = p.
Proof. exists read_affine. exact tg1_affine_reveals. Qed.
(** public_key: an observer of the inversion who knows the public key knows all coordinates of the point left by scale, which a
    published key hides. *)
Theorem C74_public_key : forall sk, fst (tpublic_key sk) = public_key sk.
Proof. intros sk. apply tg1_affine_fst. Qed.
Theorem C74_public_key_reveals : exists observer : g1 -> list iop -> g1,
  forall sk, words sk -> observer (public_key sk) (snd (tpublic_key sk)) = g1_scale g1_BASE sk.
Proof.
  exists read_affine. intros sk H. destruct (rep1g_scale _ _ sk BASE1_rep H) as [(CX & CY & CZ) _].
  rewrite <- C74_public_key. apply tg1_affine_reveals; assumption.
Qed.

(** first branches for 6 and for 7 *)
Example C74_example :
  firstn 3 (snd (tinv 6)) = [IVeven; IUgt; IUeven] /\ firstn 3 (snd (tinv 7)) = [IUgt; IUeven; IUgt] /\ words [22; 0; 0; 0].
Proof.
  unfold tinv. cbn [fp_isZero Z.eqb Pos.eqb]. rewrite !tinv_loop_eq. cbn [snd app].
  split; [vm_compute; reflexivity|]. split; [vm_compute; reflexivity|]. apply KeysProof.wordsb_ok. reflexivity.
Qed.

Definition props_leak2 := (C74_loop, C74_iterations, C74_inverse_reveals, C74_inverse_inj, C74_affine, C74_affine_reveals, C74_public_key, C74_public_key_reveals).
Print Assumptions props_leak2.
