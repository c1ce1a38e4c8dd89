(** The unit group of Fp12 and the map a -> a^(3 (p^12-1)/r). *)
From Coq Require Import ZArith Znumtheory Bool Lia Ring Field Eqdep_dec.
From Verif Require Import RingPow SpecField FieldProof TowerProof TowerProof2 TowerRefine3 AbGroup SubgroupProof PairCocycle.
Local Open Scope Z_scope.
Add Field F6_fieldPU : F6_field.
Add Field F12_fieldPU : F12_field.

Definition nz12 (a : Fp12) : bool := if F12_eq_dec a F12_0 then false else true.
Lemma nz12_ok a : nz12 a = true <-> a <> F12_0.
Proof. unfold nz12. destruct (F12_eq_dec a F12_0); split; intros; try discriminate; try contradiction; auto. Qed.
Record unit12 := mkU { uv : Fp12; uv_nz : nz12 uv = true }.
Lemma unit_eq u v : uv u = uv v -> u = v.
Proof. destruct u as [a p], v as [c q]. cbn. intros ->. f_equal. apply UIP_dec. apply bool_dec. Qed.
Lemma F12_mul_nz a c : a <> F12_0 -> c <> F12_0 -> F12mul a c <> F12_0.
Proof.
  intros A C E. apply C. transitivity (F12mul (F12inv a) (F12mul a c)); [field; exact A|]. rewrite E. ring.
Qed.
Lemma F12_inv_nz a : a <> F12_0 -> F12inv a <> F12_0.
Proof. intros A E. apply F12_1_neq_0. transitivity (F12mul a (F12inv a)); [field; exact A|]. rewrite E. ring. Qed.
Lemma nz_mul u v : nz12 (F12mul (uv u) (uv v)) = true.
Proof. apply nz12_ok, F12_mul_nz; apply nz12_ok, uv_nz. Qed.
Lemma nz_inv u : nz12 (F12inv (uv u)) = true.
Proof. apply nz12_ok, F12_inv_nz, nz12_ok, uv_nz. Qed.
Lemma nz_one : nz12 F12_1 = true. Proof. apply nz12_ok, F12_1_neq_0. Qed.
Definition U12 : abgroup.
Proof.
  refine (mkAb unit12 (fun u v => mkU (F12mul (uv u) (uv v)) (nz_mul u v)) (mkU F12_1 nz_one) (fun u => mkU (F12inv (uv u)) (nz_inv u)) _ _ _ _ _);
    intros; try (apply unit_eq; cbn [uv]; try ring).
  - field. apply nz12_ok, uv_nz.
  - destruct (F12_eq_dec (uv x) (uv y)) as [E|E]; [left; apply unit_eq, E|right; congruence].
Defined.
Definition uval (u : U12) : Fp12 := uv u.
Lemma uval_op u v : uval (gop u v) = F12mul (uval u) (uval v). Proof. reflexivity. Qed.
Lemma uval_id : uval gid = F12_1. Proof. reflexivity. Qed.
Lemma uval_inv u : uval (ginv u) = F12inv (uval u). Proof. reflexivity. Qed.
Lemma uval_nz u : uval u <> F12_0. Proof. apply nz12_ok, uv_nz. Qed.
Lemma uval_inj u v : uval u = uval v -> u = v. Proof. apply unit_eq. Qed.
Definition toU (a : Fp12) : U12 := match bool_dec (nz12 a) true with left e => mkU a e | right _ => gid end.
Lemma uval_toU a : a <> F12_0 -> uval (toU a) = a.
Proof. intros A. unfold toU. destruct (bool_dec (nz12 a) true) as [e|e]; [reflexivity|]. destruct e. apply nz12_ok, A. Qed.
Lemma toU_uval u : toU (uval u) = u. Proof. apply uval_inj, uval_toU, uval_nz. Qed.
Lemma toU_mul a c : a <> F12_0 -> c <> F12_0 -> toU (F12mul a c) = gop (toU a) (toU c).
Proof. intros A C. apply uval_inj. rewrite uval_op, !uval_toU by auto using F12_mul_nz. reflexivity. Qed.
Lemma toU_1 : toU F12_1 = gid. Proof. apply uval_inj. rewrite uval_toU by exact F12_1_neq_0. reflexivity. Qed.
Lemma uval_zmul n u : 0 <= n -> uval (zmul n u) = F12pow (uval u) n.
Proof.
  intros N. pattern n. apply natlike_ind; [reflexivity| |exact N]. intros k K IH.
  rewrite zmul_succ, uval_op, IH. unfold Z.succ. symmetry. apply (rpow_succ F12_ring). exact K.
Qed.
Lemma toU_pow a n : 0 <= n -> a <> F12_0 -> toU (F12pow a n) = zmul n (toU a).
Proof. intros N A. rewrite <- (toU_uval (zmul n (toU a))), uval_zmul, uval_toU by auto. reflexivity. Qed.

(** * exponents *)
Definition H3 (p z : Z) : Z := (z - 1) * (z - 1) * (z + p) * (z * z + p * p - 1) + 3.
Definition h3 : Z := H3 modulus Xz.
Definition easyE : Z := (modulus ^ 6 - 1) * (modulus ^ 2 + 1).
(** uval (ev a) = a^(3 (p^12-1)/r) *)
Definition fexp : Z := easyE * h3.
Lemma h3_r : h3 * order = 3 * (modulus ^ 4 - modulus ^ 2 + 1). Proof. vm_compute. reflexivity. Qed.
Lemma h3_pos : 0 <= h3. Proof. vm_compute. discriminate. Qed.
Lemma p6_pos : 0 <= modulus ^ 6 - 1. Proof. vm_compute. discriminate. Qed.
Lemma p2_even : modulus ^ 2 + 1 = 2 * ((modulus ^ 2 + 1) / 2). Proof. vm_compute. reflexivity. Qed.
Lemma p12_pos : 0 <= modulus ^ 12 - 1. Proof. vm_compute. discriminate. Qed.
Lemma r_mod_p : (order | modulus - Xz). Proof. exists ((modulus - Xz) / order). vm_compute. reflexivity. Qed.
Lemma h3_def : h3 = H3 modulus Xz. Proof. reflexivity. Qed.
#[global] Opaque h3.
Lemma fexp_r : fexp * order = 3 * (modulus ^ 12 - 1).
Proof.
  unfold fexp. rewrite <- Z.mul_assoc, h3_r. unfold easyE. generalize modulus. intros p.
  rewrite <- (easy_exp p). ring.
Qed.
Lemma fexp_pos : 0 < fexp.
Proof.
  assert (0 < fexp * order) by (rewrite fexp_r; vm_compute; reflexivity).
  apply Z.mul_pos_cancel_r with order; [vm_compute; reflexivity|assumption].
Qed.
Lemma fexp_2p6 : (2 * (modulus ^ 6 - 1) | fexp).
Proof. exists ((modulus ^ 2 + 1) / 2 * h3). unfold fexp, easyE. rewrite p2_even at 1. ring. Qed.
Definition ev (a : Fp12) : U12 := zmul fexp (toU a).
Lemma ev_mul a c : a <> F12_0 -> c <> F12_0 -> ev (F12mul a c) = gop (ev a) (ev c).
Proof. intros A C. unfold ev. rewrite toU_mul by auto. apply zmul_op. Qed.
Lemma ev_1 : ev F12_1 = gid. Proof. unfold ev. rewrite toU_1. apply zmul_id. Qed.
Lemma toU_p12 u : zmul (modulus ^ 12 - 1) u = gid :> U12.
Proof. apply uval_inj. rewrite uval_zmul by exact p12_pos. apply F12_fermat, uval_nz. Qed.
Lemma ev_r a : zmul order (ev a) = gid.
Proof. unfold ev. rewrite <- zmul_mul, Z.mul_comm, fexp_r, zmul_mul, toU_p12. apply zmul_id. Qed.
Lemma U12_p6 u : uval (zmul (modulus ^ 6) u) = F12conj (uval u).
Proof. rewrite uval_zmul by (clear; vm_compute; discriminate). apply F12_p6. Qed.
Lemma ev_conj a : a <> F12_0 -> F12conj a = a -> ev a = gid.
Proof.
  intros A C. unfold ev. apply (zmul_divide (modulus ^ 6 - 1)).
  - apply Z.divide_trans with (2 * (modulus ^ 6 - 1)); [exists 2; reflexivity|exact fexp_2p6].
  - rewrite zmul_sub, zmul_1.
    replace (zmul (modulus ^ 6) (toU a)) with (toU a); [apply g_inv|apply uval_inj; rewrite U12_p6, uval_toU, C by exact A; reflexivity].
Qed.
Lemma ev_lo x : x <> F6_0 -> ev (F12of x) = gid.
Proof.
  intros X. apply ev_conj; [intros E; apply X; exact (f_equal lo E)|]. apply F12_eq; f12_unf; [reflexivity|ring].
Qed.
(** the square lies in Fp6 *)
Lemma ev_sq a x : a <> F12_0 -> F12mul a a = F12of x -> ev a = gid.
Proof.
  intros A E. unfold ev. destruct fexp_2p6 as [k F]. rewrite F, zmul_mul.
  replace (zmul (2 * (modulus ^ 6 - 1)) (toU a)) with (gid : U12); [apply zmul_id|]. symmetry.
  rewrite Z.mul_comm, zmul_mul, zmul_2, <- toU_mul, E by auto.
  assert (X : F12of x <> F12_0) by (rewrite <- E; apply F12_mul_nz; auto).
  rewrite zmul_sub, zmul_1. replace (zmul (modulus ^ 6) (toU (F12of x))) with (toU (F12of x)); [apply g_inv|].
  apply uval_inj. rewrite U12_p6, uval_toU by exact X.
  apply F12_eq; f12_unf; [reflexivity|ring].
Qed.
Lemma ev_m1 : ev (F12opp F12_1) = gid.
Proof.
  apply (ev_sq _ F6_1); [|].
  - intros E. apply F12_1_neq_0. transitivity (F12opp (F12opp F12_1)); [ring|]. rewrite E. ring.
  - transitivity F12_1; [ring|reflexivity].
Qed.
Lemma mod_pos' : 0 <= modulus. Proof. vm_compute. discriminate. Qed.
Lemma ev_p a : a <> F12_0 -> ev (F12pow a modulus) = zmul modulus (ev a).
Proof.
  intros A. unfold ev. rewrite toU_pow by auto using mod_pos'. rewrite <- !zmul_mul, (Z.mul_comm fexp). reflexivity.
Qed.
Lemma fexp_def : fexp = easyE * h3. Proof. reflexivity. Qed.
Lemma ev_def a : ev a = zmul fexp (toU a). Proof. reflexivity. Qed.
#[global] Opaque ev fexp.
