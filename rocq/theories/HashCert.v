(** Certificates for values of hash_to_curve: the square roots and inverses are given, the equations are checked in the 63-bit arithmetic
    of I63, I63b. *)
From Coq Require Import ZArith List Bool Lia Field Uint63.
From Verif Require Import SpecField FieldProof TowerProof TowerProof2 SpecBytes SpecHash SpecCurve AbGroup CurveInst SpecMap SpecSig.
From Verif Require Import ModelWord ModelScalar ScalarProof ModelCurve CurveProof CurveRefine CurveRefine2 CurveBase I63 I63b GenProof.
Import ListNotations.
Local Open Scope Z_scope.

Inductive ex := V (n : nat) | Mu (a b : ex) | Ad (a b : ex).
Fixpoint ev (env : list Fp2) (e : ex) : Fp2 :=
  match e with V n => nth n env F2_0 | Mu a b => F2mul (ev env a) (ev env b) | Ad a b => F2add (ev env a) (ev env b) end.
Fixpoint ev63 (env : list t2) (e : ex) : t2 :=
  match e with V n => nth n env zero63x | Mu a b => mul63x (ev63 env a) (ev63 env b) | Ad a b => add63x (ev63 env a) (ev63 env b) end.
Lemma e63x_ok a : ok63x (e63x a) /\ d63x (e63x a) = a.
Proof.
  destruct a as [x y]. unfold ok63x, d63x, e63x. cbn [fst snd re im].
  destruct (e63_ok x) as [A1 A2]. destruct (e63_ok y) as [B1 B2]. rewrite A2, B2. auto.
Qed.
Lemma ev63_ok env e : Forall ok63x env -> ok63x (ev63 env e) /\ d63x (ev63 env e) = ev (map d63x env) e.
Proof.
  intros F. induction e as [n|a [A1 A2] b [B1 B2]|a [A1 A2] b [B1 B2]]; cbn [ev63 ev].
  - destruct zero63_d as [Z1 Z2]. assert (Z3 : d63x zero63x = F2_0) by (unfold d63x, zero63x; cbn [fst snd]; rewrite Z2; reflexivity).
    rewrite <- Z3, map_nth. split; [|reflexivity].
    destruct (nth_in_or_default n env zero63x) as [L| ->]; [exact (proj1 (Forall_forall _ _) F _ L)|split; exact Z1].
  - rewrite <- A2, <- B2. exact (r_mul _ _ _ _ ops63x_represents _ _ A1 B1).
  - rewrite <- A2, <- B2. exact (r_add _ _ _ _ ops63x_represents _ _ A1 B1).
Qed.
Definition eqs63 (m : list t2) (l : list (ex * ex)) : bool := forallb (fun e => eq63x (ev63 m (fst e)) (ev63 m (snd e))) l.
Lemma eqs63_ok env l : Forall ok63x env -> eqs63 env l = true -> Forall (fun e => ev (map d63x env) (fst e) = ev (map d63x env) (snd e)) l.
Proof.
  intros F. unfold eqs63. rewrite forallb_forall, Forall_forall. intros H e I. specialize (H e I).
  destruct (ev63_ok env (fst e) F) as [A1 A2]. destruct (ev63_ok env (snd e) F) as [B1 B2].
  apply eq63x_d in H; auto. rewrite A2, B2 in H. exact H.
Qed.
(** an element given by the two integers of its Montgomery form *)
Definition okz (a : Z * Z) : bool := (0 <=? fst a) && (fst a <? modulus) && (0 <=? snd a) && (snd a <? modulus).
Definition mz (a : Z * Z) : t2 := (lz (fst a), lz (snd a)).
Lemma mz_ok a : okz a = true -> ok63x (mz a).
Proof.
  unfold okz. rewrite !andb_true_iff, !Z.leb_le, !Z.ltb_lt. intros [[[A B] C] D].
  split; cbn [mz fst snd]; apply lz_ok; auto.
Qed.

(** variables: 0 u, 1 si, 2 x1, 3 w, 4 gi, 5 x, 6 y, 7 dx, 8 dy, 9 X, 10 Y, then constants *)
Definition mba : Fp2 := F2z 0x83c12791abdd5d2fe2f284f0cc6e5aa9b8c2d3f6f3f792302cf75e62bfc4df1d6834443da498888725d8cccccccb1c3 0x11c4ff711ec210c74cec7f673684c72cc8eb1e458445999c64615cbacab4a8324828bbbad70a777747a173333332f8e8.
Definition consts : list Fp2 := [A2'; B2'; Z2; mba; xi; F2_1; (b2 : Fp2); F2_0] ++ xn2 ++ xd2 ++ yn2 ++ yd2.
Notation vA := (V 11). Notation vB := (V 12). Notation vZ := (V 13). Notation vba := (V 14). Notation vxi := (V 15).
Notation v1 := (V 16). Notation vb := (V 17). Notation v0 := (V 18).
Fixpoint pex (x : ex) (cs : list nat) : ex := match cs with [] => v0 | c :: cs => Ad (V c) (Mu x (pex x cs)) end.
Definition gex (x : ex) : ex := Ad (Ad (Mu x (Mu x x)) (Mu vA x)) vB.
Definition tex : ex := Mu vZ (Mu (V 0) (V 0)).
Definition sex : ex := Ad (Mu tex tex) tex.
Definition ceqs (sq : bool) : list (ex * ex) :=
  [ (Ad (Mu vba vA) vB, v0);
    (Mu (V 1) sex, v1);
    (V 2, Mu vba (Ad v1 (V 1)));
    (Mu (V 3) (V 3), if sq then gex (V 2) else Mu vxi (gex (V 2)));
    (if sq then v1 else Mu (V 4) (gex (V 2)), v1);
    (V 5, if sq then V 2 else Mu tex (V 2));
    (Mu (V 6) (V 6), gex (V 5));
    (Mu (V 7) (pex (V 5) [23; 24; 25]%nat), v1);
    (Mu (V 8) (pex (V 5) [30; 31; 32; 33]%nat), v1);
    (V 9, Mu (pex (V 5) [19; 20; 21; 22]%nat) (V 7));
    (V 10, Mu (V 6) (Mu (pex (V 5) [26; 27; 28; 29]%nat) (V 8)));
    (Mu (V 10) (V 10), Ad (Mu (V 9) (Mu (V 9) (V 9))) vb) ].
Definition consts63 : list t2 := Eval vm_compute in map e63x consts.
Lemma consts63_ok : consts63 = map e63x consts. Proof. vm_cast_no_check (eq_refl consts63). Qed.
Definition cert (sq : bool) (u y X Y : Fp2) (si x1 w gi x dx dy : Z * Z) : bool :=
  forallb okz [si; x1; w; gi; x; dx; dy] &&
  (eqs63 ([e63x u; mz si; mz x1; mz w; mz gi; mz x; e63x y; mz dx; mz dy; e63x X; e63x Y] ++ consts63) (ceqs sq) && Bool.eqb (sgn0_2 y) (sgn0_2 u)).
Lemma cert_eqs sq u y X Y si x1 w gi x dx dy : cert sq u y X Y si x1 w gi x dx dy = true ->
  Forall (fun e => ev ([u; d63x (mz si); d63x (mz x1); d63x (mz w); d63x (mz gi); d63x (mz x); y; d63x (mz dx); d63x (mz dy); X; Y] ++ consts) (fst e)
                 = ev ([u; d63x (mz si); d63x (mz x1); d63x (mz w); d63x (mz gi); d63x (mz x); y; d63x (mz dx); d63x (mz dy); X; Y] ++ consts) (snd e)) (ceqs sq)
  /\ sgn0_2 y = sgn0_2 u.
Proof.
  unfold cert. rewrite !andb_true_iff. intros [V [H S]]. apply eqb_prop in S. split; [|exact S].
  rewrite forallb_forall in V.
  assert (K : forall a, In a [si; x1; w; gi; x; dx; dy] -> ok63x (mz a)) by (intros a Ia; exact (mz_ok a (V a Ia))).
  rewrite consts63_ok in H. apply eqs63_ok in H.
  - rewrite map_app in H. cbn [map] in H. rewrite map_map in H.
    rewrite !(fun a => proj2 (e63x_ok a)) in H.
    rewrite (map_ext _ (fun a => a) (fun a => proj2 (e63x_ok a))), map_id in H. exact H.
  - apply Forall_app. split.
    + repeat (apply Forall_cons; [first [exact (proj1 (e63x_ok _))|apply K; cbn [In]; tauto]|]). apply Forall_nil.
    + apply Forall_forall. intros t It. apply in_map_iff in It. destruct It as (a & <- & _). exact (proj1 (e63x_ok a)).
Qed.

Add Field F2field_hc : F2_field.
Lemma inv_u a b : F2mul a b = F2_1 -> b <> F2_0 /\ F2inv b = a.
Proof.
  intros E. assert (N : b <> F2_0).
  { intros ->. assert (X : F2_1 = F2_0) by (rewrite <- E; ring). exact (F2_1_neq_0 X). }
  split; [exact N|]. transitivity (F2mul (F2mul a b) (F2inv b)); [rewrite E; ring|field; exact N].
Qed.
Lemma A2'_nz : A2' <> F2_0.
Proof. intros H. apply (f_equal (fun x => fval (im x))) in H. vm_compute in H. discriminate H. Qed.
Lemma nonsq a w gi : F2mul w w = F2mul xi a -> F2mul gi a = F2_1 -> forall s, F2mul s s <> a.
Proof.
  intros Ew Eg s Es. subst a. destruct (inv_u (F2mul gi s) s) as [N _]; [rewrite <- Eg; ring|].
  apply (xi_nonsquare (F2mul w (F2inv s))).
  transitivity (F2mul (F2mul w w) (F2mul (F2inv s) (F2inv s))); [ring|]. rewrite Ew. field. exact N.
Qed.
Lemma cert_gen sq u si x1 w gi x y dx dy X Y :
  Forall (fun e => ev ([u; si; x1; w; gi; x; y; dx; dy; X; Y] ++ consts) (fst e) = ev ([u; si; x1; w; gi; x; y; dx; dy; X; Y] ++ consts) (snd e)) (ceqs sq) ->
  sgn0_2 y = sgn0_2 u ->
  map_to_curve2 u (Aff (K := KFp2) X Y) /\ onb b2 (Aff (K := KFp2) X Y) = true.
Proof.
  intros H S.
  unfold ceqs, consts in H. cbn [xn2 xd2 yn2 yd2 app] in H.
  repeat match type of H with Forall _ (_ :: _) => let E := fresh "E" in apply Forall_cons_iff in H; destruct H as [E H] end.
  clear H. unfold gex, tex, sex, pex in *.
  assert (Eba : mba = F2mul (F2opp B2') (F2inv A2')).
  { assert (K : F2add (F2mul mba A2') B2' = F2_0) by exact E. clear - K. pose proof A2'_nz as N.
    transitivity (F2mul (F2mul mba A2') (F2inv A2')); [field; exact N|].
    replace (F2mul mba A2') with (F2opp B2'); [reflexivity|].
    transitivity (F2sub (F2add (F2mul mba A2') B2') B2'); [rewrite K|]; ring. }
  set (t := F2mul Z2 (F2mul u u)).
  assert (K1 : F2mul si (F2add (F2mul t t) t) = F2_1) by exact E0.
  apply inv_u in K1. destruct K1 as [Ns Is].
  assert (X1 : sswu_x1 (K := KFp2) A2' B2' Z2 u = x1).
  { unfold sswu_x1, ksq. cbn [KFp2 kmul kadd kinv kopp k0 k1 keq car]. fold t.
    destruct (F2_eq_dec _ _) as [Q|_]; [contradiction|]. rewrite Is, <- Eba. symmetry. exact E1. }
  assert (SW : sswu (K := KFp2) sgn0_2 A2' B2' Z2 u x y).
  { unfold sswu. rewrite X1. split; [|split; [exact E5|exact S]]. destruct sq.
    - left. split; [exists w; exact E2|exact E4].
    - right. split; [|exact E4]. intros [s Q]. exact (nonsq _ _ _ E2 E3 s Q). }
  split; [|unfold onb, ksq, kcube; cbn [keq KFp2 kmul kadd]; destruct (F2_eq_dec _ _) as [_|Q]; [reflexivity|exfalso; apply Q; exact E10]].
  exists x, y. split; [exact SW|]. clear SW X1 Ns Is Eba t E E0 E1 E2 E3 E4 E5 S E10.
  unfold rational_map.
  assert (D1 : F2mul dx (peval (K := KFp2) xd2 x) = F2_1) by exact E6.
  assert (D2 : F2mul dy (peval (K := KFp2) yd2 x) = F2_1) by exact E7.
  apply inv_u in D1, D2. destruct D1 as [N1 I1]. destruct D2 as [N2 I2].
  cbn [keq KFp2 k0 kinv kmul]. destruct (F2_eq_dec _ _) as [Q|_]; [contradiction|]. destruct (F2_eq_dec _ _) as [Q|_]; [contradiction|].
  rewrite I1, I2. f_equal; [exact E8|exact E9].
Qed.
Lemma cert_ok sq u y X Y si x1 w gi x dx dy : cert sq u y X Y si x1 w gi x dx dy = true ->
  map_to_curve2 u (Aff (K := KFp2) X Y) /\ onb b2 (Aff (K := KFp2) X Y) = true.
Proof. intros H. apply cert_eqs in H. destruct H as [H S]. exact (cert_gen _ _ _ _ _ _ _ _ _ _ _ _ H S). Qed.
