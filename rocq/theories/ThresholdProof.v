(** Lagrange interpolation at 0 modulo a prime: weights for any list of distinct points; and a polynomial that vanishes at given points. *)
From Coq Require Import ZArith Znumtheory List Lia.
From Verif Require Import SpecThreshold.
Import ListNotations.
Local Open Scope Z_scope.

Section Lag.
Context (r : Z) (Pr : prime r).
Definition cg (a b : Z) : Prop := (r | a - b).
Lemma cg_refl a : cg a a. Proof. exists 0. lia. Qed.
Lemma cg_eq a b : a = b -> cg a b. Proof. intros ->. apply cg_refl. Qed.
Lemma cg_sym a b : cg a b -> cg b a. Proof. intros [q E]. exists (- q). lia. Qed.
Lemma cg_trans a b c : cg a b -> cg b c -> cg a c. Proof. intros [q E] [q' E']. exists (q + q'). lia. Qed.
Lemma cg_add a b c d : cg a b -> cg c d -> cg (a + c) (b + d). Proof. intros [q E] [q' E']. exists (q + q'). lia. Qed.
Lemma cg_sub a b c d : cg a b -> cg c d -> cg (a - c) (b - d). Proof. intros [q E] [q' E']. exists (q - q'). lia. Qed.
Lemma cg_mul k a b : cg a b -> cg (k * a) (k * b). Proof. intros [q E]. exists (k * q). replace (k * a - k * b) with (k * (a - b)) by ring. rewrite E. ring. Qed.
Lemma cg_mul_r k a b : cg a b -> cg (a * k) (b * k). Proof. intros H. rewrite !(Z.mul_comm _ k). apply cg_mul, H. Qed.
Lemma r_pos : 1 < r. Proof. destruct Pr. lia. Qed.
Lemma cg_mod a b : cg a b <-> a mod r = b mod r.
Proof.
  pose proof r_pos. split.
  - intros [q E]. replace a with (b + q * r) by lia. apply Z_mod_plus_full.
  - intros E. exists (a / r - b / r). rewrite (Z.div_mod a r) at 1 by lia. rewrite (Z.div_mod b r) at 1 by lia. rewrite E. ring.
Qed.
Lemma cg_inv d : ~ (r | d) -> exists i, cg (i * d) 1.
Proof.
  intros N. assert (R : rel_prime d r) by (apply rel_prime_sym, prime_rel_prime; assumption).
  destruct (rel_prime_bezout _ _ R) as [u v E]. exists u, (- v). lia.
Qed.

(** nodes with weights; the functional they give *)
Definition ev (l : list (Z * Z)) (F : Z -> Z) : Z := fold_right (fun yw a => snd yw * F (fst yw) + a) 0 l.
Lemma ev_lin l k1 k2 F G : ev l (fun y => k1 * F y + k2 * G y) = k1 * ev l F + k2 * ev l G.
Proof. unfold ev. induction l as [|[y w] l IH]; cbn [fold_right fst snd]; [ring|]. rewrite IH. ring. Qed.
Lemma ev_ext l F G : (forall y, F y = G y) -> ev l F = ev l G.
Proof. intros E. unfold ev. induction l as [|[y w] l IH]; cbn [fold_right fst snd]; [reflexivity|]. rewrite IH, E. reflexivity. Qed.
Lemma ev_scale l k F : ev (map (fun yw => (fst yw, k * snd yw)) l) F = k * ev l F.
Proof. unfold ev. induction l as [|[y w] l IH]; cbn [map fold_right fst snd]; [ring|]. rewrite IH. ring. Qed.
Lemma ev_wsum l F : ev l F = wsum (map snd l) (map F (map fst l)).
Proof. unfold ev. induction l as [|[y w] l IH]; cbn [map fold_right fst snd wsum]; [reflexivity|]. rewrite IH. reflexivity. Qed.
Lemma ev_divide x l : Forall (fun y => ~ (r | x - y)) (map fst l) ->
  exists l', map fst l' = map fst l /\ forall F, cg (ev l' (fun y => (x - y) * F y)) (ev l F).
Proof.
  induction l as [|[y w] l IH]; cbn [map fst]; intros H; [exists []; split; [reflexivity|intros F; apply cg_refl]|].
  inversion_clear H as [|? ? N H']. destruct (IH H') as (l' & E & Hl). destruct (cg_inv _ N) as (i & Hi).
  exists ((y, w * i) :: l'). cbn [map fst]. split; [rewrite E; reflexivity|]. intros F. unfold ev. cbn [fold_right fst snd]. apply cg_add; [|exact (Hl F)].
  replace (w * i * ((x - y) * F y)) with (w * F y * (i * (x - y))) by ring. replace (w * F y) with (w * F y * 1) at 2 by ring. apply cg_mul, Hi.
Qed.
Definition delta (j : nat) : Z := match j with O => 1 | S _ => 0 end.
Definition mono (j : nat) (y : Z) : Z := y ^ Z.of_nat j.
Lemma mono_S j y : mono (S j) y = y * mono j y.
Proof. unfold mono. rewrite Nat2Z.inj_succ, Z.pow_succ_r by lia. reflexivity. Qed.
Definition exact_to (n : nat) (l : list (Z * Z)) : Prop := forall j, (j < n)%nat -> cg (ev l (mono j)) (delta j).
Lemma lagrange xs : xs <> [] -> distinct_mod r xs -> exists l, map fst l = xs /\ exact_to (length xs) l.
Proof.
  induction xs as [|x xs IH]; intros N D; [congruence|]. destruct D as [Dx D]. destruct xs as [|x' xs].
  - exists [(x, 1)]. split; [reflexivity|]. intros [|j] Hj; [|cbn [length] in Hj; lia]. apply cg_eq. reflexivity.
  - destruct (IH ltac:(discriminate) D) as (l & E & Hl). remember (x' :: xs) as ys eqn:Ey. clear IH N.
    destruct (ev_divide x l) as (l' & E' & Hd).
    { rewrite E. eapply Forall_impl; [|exact Dx]. cbv beta. intros y Hy Hr. apply Hy. apply (cg_mod x y). exact Hr. }
    assert (Dj : forall j, (j <= length ys)%nat -> cg (ev l' (fun y => x * mono j y + - mono j x * y)) (delta j)).
    { induction j as [|j IHj]; intros Hj.
      - apply cg_trans with (ev l (mono 0)).
        + eapply cg_trans; [|exact (Hd (mono 0))]. apply cg_eq, ev_ext. intros y. unfold mono. cbn [Z.of_nat]. rewrite !Z.pow_0_r. ring.
        + apply Hl. rewrite Ey. cbn [length]. lia.
      - specialize (IHj ltac:(lia)). pose proof (Hl j ltac:(lia)) as Hj'.
        apply cg_trans with (x * (ev l' (fun y => x * mono j y + - mono j x * y) - ev l (mono j))).
        + apply cg_trans with (x * (ev l' (fun y => x * mono j y + - mono j x * y) - ev l' (fun y => (x - y) * mono j y))).
          * apply cg_eq. transitivity (ev l' (fun y => x * (x * mono j y + - mono j x * y) + - x * ((x - y) * mono j y))).
            { apply ev_ext. intros y. rewrite !mono_S. ring. }
            rewrite (ev_lin l' x (- x) (fun y => x * mono j y + - mono j x * y)). ring.
          * apply cg_mul, cg_sub; [apply cg_refl|apply Hd].
        + apply cg_trans with (x * (delta j - delta j)); [apply cg_mul, cg_sub; assumption|]. apply cg_eq. cbn [delta]. ring. }
    exists ((x, - ev l' (fun y => y)) :: map (fun yw => (fst yw, x * snd yw)) l'). split.
    { cbn [map fst]. rewrite map_map. cbn [fst]. change (map (fun yw : Z * Z => fst yw) l') with (map fst l'). rewrite E', E. reflexivity. }
    intros j Hj. cbn [length] in Hj. apply cg_trans with (ev l' (fun y => x * mono j y + - mono j x * y)); [|apply Dj; lia].
    apply cg_eq. change (ev ((x, - ev l' (fun y => y)) :: map (fun yw => (fst yw, x * snd yw)) l') (mono j)) with
      (- ev l' (fun y => y) * mono j x + ev (map (fun yw => (fst yw, x * snd yw)) l') (mono j)).
    rewrite ev_scale, (ev_lin l' x (- mono j x) (mono j) (fun y => y)). ring.
Qed.
Lemma exact_poly n l : exact_to n l -> forall cs a, (a + length cs <= n)%nat ->
  cg (ev l (fun y => mono a y * poly cs y)) (delta a * hd 0 cs).
Proof.
  intros Hl. induction cs as [|c cs IH]; intros a Ha.
  - apply cg_eq. rewrite (ev_ext l _ (fun y => 0 * mono a y + 0 * mono a y)) by (intros y; cbn [poly]; ring). rewrite ev_lin. cbn [hd]. ring.
  - cbn [length] in Ha. rewrite (ev_ext l _ (fun y => c * mono a y + 1 * (mono (S a) y * poly cs y))) by (intros y; cbn [poly]; rewrite mono_S; ring).
    rewrite ev_lin. cbn [hd]. apply cg_trans with (c * delta a + 1 * (delta (S a) * hd 0 cs)); [|apply cg_eq; cbn [delta]; ring].
    apply cg_add; apply cg_mul; [apply Hl; lia|apply IH; lia].
Qed.
(** weights for the value at 0 of every polynomial with at most as many coefficients as there are points *)
Lemma interpolate xs : xs <> [] -> distinct_mod r xs ->
  exists ws, length ws = length xs /\ forall cs, (length cs <= length xs)%nat -> cg (wsum ws (map (poly cs) xs)) (hd 0 cs).
Proof.
  intros N D. destruct (lagrange xs N D) as (l & E & Hl). exists (map snd l). split; [rewrite <- E, !map_length; reflexivity|].
  intros cs Hc. rewrite <- E, <- ev_wsum. pose proof (exact_poly _ l Hl cs 0 Hc) as P.
  rewrite (ev_ext l (fun y => mono 0 y * poly cs y) (poly cs)) in P by (intros y; unfold mono; cbn [Z.of_nat]; rewrite Z.pow_0_r; ring).
  cbn [delta] in P. rewrite Z.mul_1_l in P. exact P.
Qed.
Lemma wsum_cg ws : forall vs ws' vs', Forall2 cg ws ws' -> Forall2 cg vs vs' -> cg (wsum ws vs) (wsum ws' vs').
Proof.
  induction ws as [|w ws IH]; intros vs ws' vs' Hw Hv; inversion Hw as [|? w' ? ws'' Hw1 Hw2]; subst; [apply cg_refl|].
  inversion Hv as [|v v' vs1 vs1' Hv1 Hv2]; subst; [apply cg_refl|]. cbn [wsum]. apply cg_add; [|exact (IH _ _ _ Hw2 Hv2)].
  apply cg_trans with (w' * v); [apply cg_mul_r, Hw1|apply cg_mul, Hv1].
Qed.
(** multiplication of a polynomial by 1 + t x *)
Fixpoint mulx (t p : Z) (cs : list Z) : list Z := match cs with c :: cs => (c + t * p) :: mulx t c cs | [] => [t * p] end.
Lemma mulx_poly t y cs : forall p, poly (mulx t p cs) y = poly cs y + t * (p + y * poly cs y).
Proof. induction cs as [|c cs IH]; intros p; cbn [mulx poly]; [ring|]. rewrite IH. ring. Qed.
Lemma mulx_length t cs : forall p, length (mulx t p cs) = S (length cs).
Proof. induction cs as [|c cs IH]; intros p; cbn [mulx length]; [reflexivity|]. rewrite IH. reflexivity. Qed.
(** value 1 at 0, value 0 at the given points *)
Lemma vanish xs : Forall (fun x => ~ (r | x)) xs ->
  exists cs, length cs = S (length xs) /\ hd 0 cs = 1 /\ Forall (fun x => cg (poly cs x) 0) xs.
Proof.
  induction xs as [|x xs IH]; intros H; [exists [1]; split; [reflexivity|split; [reflexivity|constructor]]|].
  inversion_clear H as [|? ? N H']. destruct (IH H') as (cs & L & Hh & Hc). destruct (cg_inv _ N) as (i & Hi).
  exists (mulx (- i) 0 cs). split; [rewrite mulx_length, L; reflexivity|]. split.
  { destruct cs as [|c cs]; [discriminate L|]. cbn [mulx hd] in Hh |- *. rewrite Hh. ring. }
  constructor.
  - rewrite mulx_poly. replace (poly cs x + - i * (0 + x * poly cs x)) with (poly cs x * (1 - i * x)) by ring.
    apply cg_trans with (poly cs x * (1 - 1)); [apply cg_mul, cg_sub; [apply cg_refl|exact Hi]|apply cg_eq; ring].
  - eapply Forall_impl; [|exact Hc]. cbv beta. intros y Hy. rewrite mulx_poly.
    replace (poly cs y + - i * (0 + y * poly cs y)) with ((1 - i * y) * poly cs y) by ring.
    apply cg_trans with ((1 - i * y) * 0); [apply cg_mul, Hy|apply cg_eq; ring].
Qed.
(** multiplication by X - x; sums; the polynomial through given points *)
Fixpoint rootx (x p : Z) (cs : list Z) : list Z := match cs with c :: cs => (p - x * c) :: rootx x c cs | [] => [p] end.
Lemma rootx_poly x y cs : forall p, poly (rootx x p cs) y = p + (y - x) * poly cs y.
Proof. induction cs as [|c cs IH]; intros p; cbn [rootx poly]; [ring|]. rewrite IH. ring. Qed.
Lemma rootx_length x cs : forall p, length (rootx x p cs) = S (length cs).
Proof. induction cs as [|c cs IH]; intros p; cbn [rootx length]; [reflexivity|]. rewrite IH. reflexivity. Qed.
Fixpoint comb (k : Z) (qs cs : list Z) : list Z :=
  match qs, cs with q :: qs, c :: cs => (k * q + c) :: comb k qs cs | q :: qs, [] => (k * q) :: comb k qs [] | [], cs => cs end.
Lemma comb_poly k y qs : forall cs, poly (comb k qs cs) y = k * poly qs y + poly cs y.
Proof. induction qs as [|q qs IH]; intros [|c cs]; cbn [comb poly]; [ring|ring|rewrite IH; cbn [poly]; ring|rewrite IH; ring]. Qed.
Lemma comb_length k qs : forall cs, (length cs <= length qs)%nat -> length (comb k qs cs) = length qs.
Proof. induction qs as [|q qs IH]; intros [|c cs] H; cbn [comb length] in *; [reflexivity|lia|rewrite IH; [reflexivity|cbn [length]; lia]|rewrite IH; [reflexivity|lia]]. Qed.
Lemma roots xs : exists q, length q = S (length xs) /\ Forall (fun x => cg (poly q x) 0) xs /\ forall y, Forall (fun x => ~ (r | y - x)) xs -> ~ (r | poly q y).
Proof.
  induction xs as [|x xs (q & L & Hq & Hn)].
  - exists [1]. split; [reflexivity|]. split; [constructor|]. intros y _ D. cbn [poly] in D. replace (1 + y * 0) with 1 in D by ring. pose proof r_pos. apply Z.divide_1_r_nonneg in D; lia.
  - exists (rootx x 0 q). split; [rewrite rootx_length, L; reflexivity|]. split.
    + constructor; [apply cg_eq; rewrite rootx_poly; ring|]. eapply Forall_impl; [|exact Hq]. cbv beta. intros y Hy. rewrite rootx_poly.
      apply cg_trans with (0 + (y - x) * 0); [apply cg_add; [apply cg_refl|apply cg_mul, Hy]|apply cg_eq; ring].
    + intros y H. inversion_clear H as [|? ? H1 H2]. rewrite rootx_poly, Z.add_0_l. intros D. apply prime_mult in D; [|exact Pr]. destruct D as [D|D]; [exact (H1 D)|exact (Hn y H2 D)].
Qed.
Lemma through xs : forall vs, distinct_mod r xs -> length vs = length xs -> exists cs, length cs = length xs /\ Forall2 (fun x v => cg (poly cs x) v) xs vs.
Proof.
  induction xs as [|x xs IH]; intros [|v vs] D L; try discriminate L; [exists []; split; [reflexivity|constructor]|].
  destruct D as [Dx D]. destruct (IH vs D ltac:(injection L; auto)) as (cs & Lc & Hc). destruct (roots xs) as (q & Lq & Hq & Hn).
  assert (N : ~ (r | poly q x)).
  { apply Hn. eapply Forall_impl; [|exact Dx]. cbv beta. intros y Hy Hr. apply Hy, (cg_mod x y). exact Hr. }
  destruct (cg_inv _ N) as (i & Hi). exists (comb ((v - poly cs x) * i) q cs). split; [rewrite comb_length by lia; rewrite Lq; reflexivity|]. constructor.
  - rewrite comb_poly. replace ((v - poly cs x) * i * poly q x + poly cs x) with ((v - poly cs x) * (i * poly q x) + poly cs x) by ring.
    apply cg_trans with ((v - poly cs x) * 1 + poly cs x); [apply cg_add; [apply cg_mul, Hi|apply cg_refl]|apply cg_eq; ring].
  - clear -Hc Hq. revert Hq. generalize ((v - poly cs x) * i) as k. intros k Hq. induction Hc as [|y u ys us H _ IH]; [constructor|]. inversion_clear Hq as [|? ? Q1 Q2]. constructor; [|exact (IH Q2)].
    rewrite comb_poly. apply cg_trans with (k * 0 + u); [apply cg_add; [apply cg_mul, Q1|exact H]|apply cg_eq; ring].
Qed.
(** at most one polynomial through given points *)
Fixpoint quo (x : Z) (cs : list Z) : list Z := match cs with _ :: cs' => match cs' with [] => [] | _ :: _ => poly cs' x :: quo x cs' end | [] => [] end.
Lemma quo_length x cs : length (quo x cs) = pred (length cs).
Proof. induction cs as [|c [|c' cs] IH]; [reflexivity|reflexivity|]. change (quo x (c :: c' :: cs)) with (poly (c' :: cs) x :: quo x (c' :: cs)). cbn [length]. rewrite IH. reflexivity. Qed.
Lemma quo_poly x y cs : poly cs y - poly cs x = (y - x) * poly (quo x cs) y.
Proof.
  induction cs as [|c [|c' cs] IH]; [cbn [poly quo]; ring|cbn [poly quo]; ring|].
  change (quo x (c :: c' :: cs)) with (poly (c' :: cs) x :: quo x (c' :: cs)). remember (c' :: cs) as l eqn:El. clear El.
  change (poly (c :: l) y) with (c + y * poly l y). change (poly (c :: l) x) with (c + x * poly l x). change (poly (poly l x :: quo x l) y) with (poly l x + y * poly (quo x l) y).
  replace (c + y * poly l y - (c + x * poly l x)) with (y * (poly l y - poly l x) + (y - x) * poly l x) by ring. rewrite IH. ring.
Qed.
Lemma quo_zero x cs : cg (poly cs x) 0 -> Forall (fun c => cg c 0) (quo x cs) -> Forall (fun c => cg c 0) cs.
Proof.
  induction cs as [|c [|c' cs] IH]; intros H Q; [constructor|constructor; [|constructor]; cbn [poly] in H; replace c with (c + x * 0) by ring; exact H|].
  change (quo x (c :: c' :: cs)) with (poly (c' :: cs) x :: quo x (c' :: cs)) in Q. inversion_clear Q as [|? ? Q1 Q2]. constructor; [|exact (IH Q1 Q2)].
  change (poly (c :: c' :: cs) x) with (c + x * poly (c' :: cs) x) in H. replace c with (c + x * poly (c' :: cs) x - x * poly (c' :: cs) x) by ring.
  apply cg_trans with (0 - x * 0); [apply cg_sub; [exact H|apply cg_mul, Q1]|apply cg_eq; ring].
Qed.
Lemma zeros xs : forall cs, distinct_mod r xs -> (length cs <= length xs)%nat -> Forall (fun x => cg (poly cs x) 0) xs -> Forall (fun c => cg c 0) cs.
Proof.
  induction xs as [|x xs IH]; intros cs D L H; [destruct cs; [constructor|cbn [length] in L; lia]|]. destruct D as [Dx D]. inversion_clear H as [|? ? H1 H2].
  apply (quo_zero x cs H1). apply IH; [exact D|rewrite quo_length; cbn [length] in L; lia|].
  clear -Pr Dx H1 H2. induction H2 as [|y ys Hy _ IHy]; [constructor|]. inversion_clear Dx as [|? ? D1 D2]. constructor; [|exact (IHy D2)].
  assert (E : (r | (y - x) * poly (quo x cs) y)).
  { rewrite <- quo_poly. destruct Hy as [a Ea]. destruct H1 as [b Eb]. exists (a - b). rewrite Z.mul_sub_distr_r, <- Ea, <- Eb. ring. }
  apply prime_mult in E; [|exact Pr]. destruct E as [E|E]; [|unfold cg; rewrite Z.sub_0_r; exact E]. exfalso. apply D1. symmetry. apply (cg_mod y x). exact E.
Qed.
Lemma sub_poly y cs : forall ds, length cs = length ds -> poly cs y - poly ds y = poly (map (fun p => fst p - snd p) (combine cs ds)) y.
Proof. induction cs as [|c cs IH]; intros [|d ds] L; try discriminate L; cbn [combine map poly fst snd]; [ring|]. rewrite <- IH by (injection L; auto). ring. Qed.
Lemma unique xs cs ds : distinct_mod r xs -> length cs = length ds -> (length cs <= length xs)%nat -> Forall (fun x => cg (poly cs x) (poly ds x)) xs -> Forall2 cg cs ds.
Proof.
  intros D L L' H. assert (Z0 : Forall (fun c => cg c 0) (map (fun p : Z * Z => fst p - snd p) (combine cs ds))).
  { apply (zeros xs); [exact D|rewrite map_length, combine_length; lia|]. eapply Forall_impl; [|exact H]. cbv beta. intros y Hy. rewrite <- sub_poly by exact L. unfold cg. rewrite Z.sub_0_r. exact Hy. }
  clear -L Z0. revert ds L Z0. induction cs as [|c cs IH]; intros [|d ds] L Z0; try discriminate L; constructor; cbn [combine map fst snd] in Z0; inversion_clear Z0 as [|? ? Z1 Z2].
  - unfold cg in *. rewrite Z.sub_0_r in Z1. exact Z1.
  - apply IH; [injection L; auto|exact Z2].
Qed.
End Lag.
