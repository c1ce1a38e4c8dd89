(** The library on limbs refines the value-level model: curve operations, codecs, maps to the curves. *)
From Coq Require Import ZArith List Bool Lia.
From Verif Require Import SpecBytes ModelWord ModelScalar ModelDiv ModelPrim ModelFp ModelTower ModelCurve ModelCodec ModelMap PortArith ModelLimb ModelLimbLib SpecLimb.
From Verif Require Import ScalarProof BytesProof CarryProof LimbProof LibProof1.
Import ListNotations.
Local Open Scope Z_scope.

(** * Functions written over a record of operations *)
Section G.
Context {A B : Type} (R : A -> B -> Prop) (o : fops A) (o' : fops B).
Record ops_r : Prop := {
  o_zero : R (f_zero o) (f_zero o'); o_one : R (f_one o) (f_one o');
  o_add : forall x x' y y', R x x' -> R y y' -> R (f_add o x y) (f_add o' x' y');
  o_sub : forall x x' y y', R x x' -> R y y' -> R (f_sub o x y) (f_sub o' x' y');
  o_mul : forall x x' y y', R x x' -> R y y' -> R (f_mul o x y) (f_mul o' x' y');
  o_sqr : forall x x', R x x' -> R (f_sqr o x) (f_sqr o' x');
  o_dbl : forall x x', R x x' -> R (f_dbl o x) (f_dbl o' x');
  o_neg : forall x x', R x x' -> R (f_neg o x) (f_neg o' x');
  o_inv : forall x x', R x x' -> R (f_inv o x) (f_inv o' x');
  o_eq : forall x x' y y', R x x' -> R y y' -> f_eq o x y = f_eq o' x' y';
  o_isZero : forall x x', R x x' -> f_isZero o x = f_isZero o' x';
  o_isOne : forall x x', R x x' -> f_isOne o x = f_isOne o' x' }.
Context (H : ops_r).
Local Notation rJ := (rJ R).
Lemma mkJ_r x x' y y' z z' : R x x' -> R y y' -> R z z' -> rJ (mkJ x y z) (mkJ x' y' z'). Proof. intros. split; assumption. Qed.
Let Hz := o_zero H. Let Ho := o_one H. Let Ha := o_add H. Let Hs := o_sub H. Let Hm := o_mul H. Let Hq := o_sqr H. Let Hd := o_dbl H.
Let Hn := o_neg H. Let Hi := o_inv H. Let He := o_eq H. Let H0 := o_isZero H. Let H1 := o_isOne H.
Let Jx p q := @rJ_x A B R p q. Let Jy p q := @rJ_y A B R p q. Let Jz p q := @rJ_z A B R p q.
#[local] Hint Resolve Hz Ho Ha Hs Hm Hq Hd Hn Hi He H0 H1 Jx Jy Jz mkJ_r : rel.
Lemma j_zero_r : rJ (j_zero o) (j_zero o'). Proof. unfold j_zero. rel. Qed.
Lemma j_isZero_r p p' : rJ p p' -> j_isZero o p = j_isZero o' p'. Proof. intros. unfold j_isZero. rel. Qed.
Lemma j_isAffine_r p p' : rJ p p' -> j_isAffine o p = j_isAffine o' p'. Proof. intros. unfold j_isAffine. rel. Qed.
#[local] Hint Resolve j_zero_r j_isZero_r j_isAffine_r : rel.
Lemma j_equal_r p p' q q' : rJ p p' -> rJ q q' -> j_equal o p q = j_equal o' p' q'.
Proof. intros. unfold j_equal. cbv zeta. repeat rel_if; rel. Qed.
Lemma j_isOnCurve_r c c' p p' : R c c' -> rJ p p' -> j_isOnCurve o c p = j_isOnCurve o' c' p'.
Proof. intros. unfold j_isOnCurve. cbv zeta. rel_if; [reflexivity|rel]. Qed.
Lemma j_affine_r p p' : rJ p p' -> rJ (j_affine o p) (j_affine o' p').
Proof. intros. unfold j_affine. cbv zeta. rel_if; rel. Qed.
Lemma j_dbl_r p p' : rJ p p' -> rJ (j_dbl o p) (j_dbl o' p').
Proof. intros. unfold j_dbl. cbv zeta. rel_if; rel. Qed.
#[local] Hint Resolve j_equal_r j_isOnCurve_r j_affine_r j_dbl_r : rel.
Lemma j_add_r p p' q q' : rJ p p' -> rJ q q' -> rJ (j_add o p q) (j_add o' p' q').
Proof. intros. unfold j_add. cbv zeta. repeat rel_if; rel. Qed.
Lemma j_neg_r p p' : rJ p p' -> rJ (j_neg o p) (j_neg o' p').
Proof. intros. unfold j_neg. rel. Qed.
#[local] Hint Resolve j_add_r j_neg_r : rel.
Lemma j_sub_r p p' q q' : rJ p p' -> rJ q q' -> rJ (j_sub o p q) (j_sub o' p' q').
Proof. intros. unfold j_sub. rel. Qed.
Lemma j_scale_r p p' s : rJ p p' -> rJ (j_scale o p s) (j_scale o' p' s).
Proof.
  intros Hp. unfold j_scale, gscale. generalize (Z.to_nat (bitLength s)). intros n.
  assert (Q : rJ (mkJ (f_zero o) (f_zero o) (f_zero o)) (mkJ (f_zero o') (f_zero o') (f_zero o'))) by rel. revert Q.
  generalize (mkJ (f_zero o) (f_zero o) (f_zero o)), (mkJ (f_zero o') (f_zero o') (f_zero o')). generalize 0%nat. revert p p' Hp.
  induction n as [|n IH]; intros p p' Hp i q q' Q; [exact Q|]. cbn [scale_loop]. apply IH; [rel|]. destruct (sbit s i); rel.
Qed.
(** weighted sums *)
Lemma bucket_add_r l l' i p p' : Forall2 rJ l l' -> rJ p p' -> Forall2 rJ (bucket_add o l i p) (bucket_add o' l' i p').
Proof.
  intros Hl Hp. revert i. induction Hl as [|q q' l l' Q Hl IH]; intros i; [constructor|]. destruct i as [|i]; cbn [bucket_add].
  - constructor; [rel|exact Hl].
  - constructor; [exact Q|apply IH].
Qed.
Lemma ws_fill_r c j ps ps' : Forall2 (rP rJ eq) ps ps' -> forall bk bk', Forall2 rJ bk bk' -> Forall2 rJ (ws_fill o c j ps bk) (ws_fill o' c j ps' bk').
Proof.
  unfold ws_fill. induction 1 as [|[p s] [p' s'] ps ps' [P1 P2] _ IH]; intros bk bk' Hb; [exact Hb|]. cbn [fold_left fst snd] in *. cbv zeta. apply IH. subst s'.
  destruct (ws_index c j s =? 0); [exact Hb|]. apply bucket_add_r; assumption.
Qed.
Lemma Forall2_rev {X Y} (S : X -> Y -> Prop) l l' : Forall2 S l l' -> Forall2 S (rev l) (rev l').
Proof. induction 1 as [|x y l l' P _ IH]; [constructor|]. cbn [rev]. apply Forall2_app; [exact IH|]. constructor; [exact P|constructor]. Qed.
Lemma ws_acc_r bk bk' : Forall2 rJ bk bk' -> rJ (ws_acc o bk) (ws_acc o' bk').
Proof.
  intros Hb. apply Forall2_rev in Hb. unfold ws_acc.
  assert (Q : rP rJ rJ (j_zero o, j_zero o) (j_zero o', j_zero o')) by rel. revert Q. generalize (j_zero o, j_zero o), (j_zero o', j_zero o').
  induction Hb as [|q q' l l' P _ IH]; intros [a s] [a' s'] [Q1 Q2]; cbn [fold_left fst snd] in *; [exact Q1|]. cbv zeta. apply IH. apply rP_pair; rel.
Qed.
Lemma repeat_r {X Y} (S : X -> Y -> Prop) x y n : S x y -> Forall2 S (repeat x n) (repeat y n).
Proof. intros P. induction n; constructor; assumption. Qed.
Lemma dbl_times_r n : forall p p', rJ p p' -> rJ (dbl_times o n p) (dbl_times o' n p').
Proof. induction n as [|n IH]; intros p p' P; [exact P|]. cbn [dbl_times]. apply IH. rel. Qed.
Lemma Forall2_len {X Y} (S : X -> Y -> Prop) l l' : Forall2 S l l' -> length l = length l'.
Proof. induction 1; [reflexivity|]. cbn [length]. congruence. Qed.
Lemma combine_r l l' (ss : list (list Z)) : Forall2 rJ l l' -> Forall2 (rP rJ eq) (combine l ss) (combine l' ss).
Proof. intros Hl. revert ss. induction Hl as [|p p' l l' P _ IH]; intros [|s ss]; try constructor; [apply rP_pair; [exact P|reflexivity]|apply IH]. Qed.
Lemma j_weightedSum_r l l' ss : Forall2 rJ l l' -> rJ (j_weightedSum o l ss) (j_weightedSum o' l' ss).
Proof.
  intros Hl. unfold j_weightedSum. cbv zeta. pose proof (combine_r l l' ss Hl) as C. rewrite <- (Forall2_len _ _ _ C).
  set (c := ws_width (length (combine l ss))). clearbody c.
  assert (Q : Forall2 rJ (rev (map (ws_window o c (combine l ss)) (seq 0 (255 / c + 1)))) (rev (map (ws_window o' c (combine l' ss)) (seq 0 (255 / c + 1))))).
  { apply Forall2_rev. generalize (seq 0 (255 / c + 1)). intros js. induction js as [|j js IH]; [constructor|]. cbn [map]. constructor; [|exact IH].
    unfold ws_window. apply ws_acc_r, ws_fill_r; [exact C|]. apply repeat_r, j_zero_r. }
  assert (P : rJ (j_zero o) (j_zero o')) by rel. revert P. generalize (j_zero o), (j_zero o'). revert Q.
  generalize (rev (map (ws_window o c (combine l ss)) (seq 0 (255 / c + 1)))), (rev (map (ws_window o' c (combine l' ss)) (seq 0 (255 / c + 1)))).
  induction 1 as [|w w' ws ws' W _ IH]; intros a a' P; [exact P|]. cbn [fold_left]. apply IH. apply j_add_r; [apply dbl_times_r, P|exact W].
Qed.
(** codecs; [n]: bytes per coordinate *)
Section Codec.
Context (n : nat) (rd : list Z -> bool -> bool -> option A) (rd' : list Z -> bool -> bool -> option B) (wr : A -> bool -> list Z) (wr' : B -> bool -> list Z) (bc : A) (bc' : B).
Context (Hbc : R bc bc') (Hrd : forall a check mont, bytes a -> length a = n -> rO R (rd a check mont) (rd' a check mont)) (Hwr : forall x x' mont, R x x' -> wr x mont = wr' x' mont).
#[local] Hint Resolve Hbc Hwr : rel.
Lemma j_fromJacobian_r a check mont : bytes a -> length a = (3 * n)%nat ->
  rO rJ (j_fromJacobian o bc n rd a check mont) (j_fromJacobian o' bc' n rd' a check mont).
Proof.
  intros Ba La. unfold j_fromJacobian.
  pose proof (Hrd (sub_span 0 n a) true mont (sub_span_bytes _ _ a Ba) (sub_span_len 0 n a ltac:(lia))) as K0.
  pose proof (Hrd (sub_span n n a) true mont (sub_span_bytes _ _ a Ba) (sub_span_len n n a ltac:(lia))) as K1.
  pose proof (Hrd (sub_span (2 * n) n a) true mont (sub_span_bytes _ _ a Ba) (sub_span_len (2 * n) n a ltac:(lia))) as K2.
  destruct (rd (sub_span 0 n a) true mont), (rd' (sub_span 0 n a) true mont); try contradiction; try exact I;
  destruct (rd (sub_span n n a) true mont), (rd' (sub_span n n a) true mont); try contradiction; try exact I;
  destruct (rd (sub_span (2 * n) n a) true mont), (rd' (sub_span (2 * n) n a) true mont); try contradiction; try exact I. unfold rO in K0, K1, K2. cbv zeta.
  rewrite (j_isOnCurve_r bc bc' _ _ Hbc (mkJ_r _ _ _ _ _ _ K0 K1 K2)).
  match goal with |- context [if ?c then None else _] => destruct c end; [exact I|red; rel].
Qed.
Lemma j_fromAffine_r a check mont : bytes a -> length a = (2 * n)%nat ->
  rO rJ (j_fromAffine o bc n rd a check mont) (j_fromAffine o' bc' n rd' a check mont).
Proof.
  intros Ba La. unfold j_fromAffine.
  pose proof (Hrd (sub_span 0 n a) true mont (sub_span_bytes _ _ a Ba) (sub_span_len 0 n a ltac:(lia))) as K0.
  pose proof (Hrd (sub_span n n a) true mont (sub_span_bytes _ _ a Ba) (sub_span_len n n a ltac:(lia))) as K1.
  destruct (rd (sub_span 0 n a) true mont), (rd' (sub_span 0 n a) true mont); try contradiction; try exact I;
  destruct (rd (sub_span n n a) true mont), (rd' (sub_span n n a) true mont); try contradiction; try exact I. unfold rO in K0, K1. cbv zeta.
  rewrite (j_isOnCurve_r bc bc' _ _ Hbc (mkJ_r _ _ _ _ _ _ K0 K1 Ho)), (H0 _ _ K0), (H0 _ _ K1).
  match goal with |- context [if ?c then Some _ else _] => destruct c end; [red; rel|].
  match goal with |- context [if ?c then None else _] => destruct c end; [exact I|red; rel].
Qed.
Lemma j_toJacobian_r p p' mont : rJ p p' -> j_toJacobian wr p mont = j_toJacobian wr' p' mont.
Proof. intros P. unfold j_toJacobian. rel. Qed.
Lemma j_toAffine_r p p' mont : rJ p p' -> j_toAffine o n wr p mont = j_toAffine o' n wr' p' mont.
Proof. intros P. unfold j_toAffine. cbv zeta. rel_if; [reflexivity|rel]. Qed.
Context (sq : A -> bool * A) (sq' : B -> bool * B) (lex : A -> bool) (lex' : B -> bool).
Context (Hsq : forall x x', R x x' -> rP eq R (sq x) (sq' x')) (Hlex : forall x x', R x x' -> lex x = lex' x').
Lemma j_recover_r x x' ysign : R x x' -> rO rJ (j_recover o bc sq lex x ysign) (j_recover o' bc' sq' lex' x' ysign).
Proof.
  intros X. unfold j_recover. cbv zeta. assert (K : R (f_add o (f_mul o (f_sqr o x) x) bc) (f_add o' (f_mul o' (f_sqr o' x') x') bc')) by rel.
  apply Hsq in K. destruct (sq _) as [ok y], (sq' _) as [ok' y'], K as [E Y]. cbn [fst snd] in *. subst ok'. destruct ok; [|exact I]. red. rewrite (Hlex y y' Y).
  apply mkJ_r; [exact X| |exact Ho]. destruct (xorb (lex' y') ysign); [apply Hn, Y|exact Y].
Qed.
End Codec.
(** maps *)
Section Swu.
Context (qnr : A -> bool) (qnr' : B -> bool) (sq : A -> bool * A) (sq' : B -> bool * B) (sgn : A -> bool) (sgn' : B -> bool) (f : B -> A) (ps : @swu_params B).
Context (Hqnr : forall x x', R x x' -> qnr x = qnr' x') (Hsq : forall x x', R x x' -> rP eq R (sq x) (sq' x')) (Hsgn : forall x x', R x x' -> sgn x = sgn' x').
Context (P1 : R (f (sw_z ps)) (sw_z ps)) (P2 : R (f (sw_zInv ps)) (sw_zInv ps)) (P3 : R (f (sw_a ps)) (sw_a ps)) (P4 : R (f (sw_b ps)) (sw_b ps)) (P5 : R (f (sw_mBA ps)) (sw_mBA ps)).
#[local] Hint Resolve P1 P2 P3 P4 P5 Hqnr Hsgn : rel.
Lemma swu_x1_r x x' : R x x' -> R (swu_x1 o (swu_limbs f ps) x) (swu_x1 o' ps x').
Proof. intros X. unfold swu_x1. cbv zeta. cbn [sw_zInv sw_mBA swu_limbs]. apply Hm; [|exact P5]. rel_if; rel. Qed.
Lemma swu_gx_r x x' : R x x' -> R (swu_gx o (swu_limbs f ps) x) (swu_gx o' ps x').
Proof. intros X. unfold swu_gx. cbv zeta. cbn [sw_a sw_b swu_limbs]. rel. Qed.
#[local] Hint Resolve swu_x1_r swu_gx_r : rel.
Lemma swu_map_r e e' : R e e' -> rP R R (swu_map o qnr sq sgn (swu_limbs f ps) e) (swu_map o' qnr' sq' sgn' ps e').
Proof.
  intros E. unfold swu_map. cbv zeta. cbn [sw_z swu_limbs]. assert (K1 : R (f_mul o (f_sqr o e) (f (sw_z ps))) (f_mul o' (f_sqr o' e') (sw_z ps))) by rel.
  set (t := f_mul o (f_sqr o e) (f (sw_z ps))) in *. set (t' := f_mul o' (f_sqr o' e') (sw_z ps)) in *. clearbody t t'.
  assert (K2 : R (swu_x1 o (swu_limbs f ps) t) (swu_x1 o' ps t')) by rel.
  set (x := swu_x1 o (swu_limbs f ps) t) in *. set (x' := swu_x1 o' ps t') in *. clearbody x x'.
  assert (K3 : R (swu_gx o (swu_limbs f ps) x) (swu_gx o' ps x')) by rel.
  set (g := swu_gx o (swu_limbs f ps) x) in *. set (g' := swu_gx o' ps x') in *. clearbody g g'. rewrite (Hqnr g g' K3).
  set (c := negb (qnr' g')). clearbody c.
  assert (K4 : R (if c then g else f_mul o g (f_mul o t (f_sqr o t))) (if c then g' else f_mul o' g' (f_mul o' t' (f_sqr o' t')))) by (destruct c; rel).
  apply Hsq in K4. destruct K4 as [_ K4]. apply rP_pair; [destruct c; rel|]. set (y := snd (sq _)) in *. set (y' := snd (sq' _)) in *. clearbody y y'.
  rewrite (Hsgn y y' K4), (Hsgn e e' E). destruct (negb _); rel.
Qed.
Lemma horner_r l l' x x' : Forall2 R l l' -> R x x' -> R (horner o l x) (horner o' l' x').
Proof.
  intros Hl X. apply Forall2_rev in Hl. unfold horner. destruct Hl as [|c c' r r' C Hr]; [rel|]. revert c c' C.
  induction Hr as [|d d' r r' D _ IH]; intros c c' C; [exact C|]. cbn [fold_left]. apply IH. rel.
Qed.
End Swu.
Lemma map_r (f : B -> A) (ok : B -> bool) l : (forall z, ok z = true -> R (f z) z) -> forallb ok l = true -> Forall2 R (map f l) l.
Proof.
  intros Hf. induction l as [|z l IH]; intros K; constructor; cbn [forallb] in K; apply andb_true_iff in K; [apply Hf, K|apply IH, K].
Qed.
Lemma jmap_r (f : B -> A) p : R (f (jx p)) (jx p) -> R (f (jy p)) (jy p) -> R (f (jz p)) (jz p) -> rJ (jmap f p) p.
Proof. intros. split; assumption. Qed.
End G.
