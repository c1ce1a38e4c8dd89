(** The logged hash functions: the values are those of ModelMem.v, the log depends on lengths only. *)
From Coq Require Import ZArith List Bool Lia.
From Verif Require Import ModelWord ModelScalar ModelSha ModelKdf ModelMem ModelTrace.
Import ListNotations.
Local Open Scope Z_scope.

(** * Forgetting the log *)
Definition er {A} (t : tr A) (o : option A) : Prop := forall l, option_map fst (t l) = o.
Lemma er_ret {A} (x : A) : er (ret x) (Some x). Proof. intros l. reflexivity. Qed.
Lemma er_logged {A} e (o : option A) : er (logged e o) o.
Proof. intros l. unfold logged. destruct o; reflexivity. Qed.
Lemma er_bind {A B} (t : tr A) o (k : A -> tr B) f : er t o -> (forall x, er (k x) (f x)) -> er (bind t k) (match o with Some x => f x | None => None end).
Proof.
  intros H K l. unfold bind. specialize (H l). destruct (t l) as [[x l']|]; cbn [option_map fst] in H; subst o; [apply K|reflexivity].
Qed.
Lemma er_tbr {B} b (k : bool -> tr B) o : er (k b) o -> er (bind (tbr b) k) o.
Proof. intros H l. unfold bind, tbr, logged. apply H. Qed.
Lemma er_for {S} (body : Z -> S -> tr S) body' : (forall i s, er (body i s) (body' i s)) -> forall n i s, er (tfor n i body s) (for_up n i body' s).
Proof.
  intros H n. induction n as [|n IH]; intros i s; [apply er_ret|]. cbn [tfor for_up]. apply er_bind; [apply H|]. intros x. apply IH.
Qed.
Ltac er_step := lazymatch goal with
  | |- er (ret _) _ => apply er_ret
  | |- er (logged _ _) _ => apply er_logged
  | |- er (trd _ _ _) _ => apply er_logged
  | |- er (twr _ _ _ _) _ => apply er_logged
  | |- er (trange _ _ _ _) _ => apply er_logged
  | |- er (twrange _ _ _ _) _ => apply er_logged
  | |- er (bind (tbr _) _) _ => apply er_tbr
  | |- er (bind _ _) _ => apply er_bind; [|intros ?]
  | |- er (tfor _ _ _ _) _ => apply er_for; intros ? ?
  end.
Ltac er := repeat (cbv beta zeta; er_step).

Lemma er_schedule d m : er (t_schedule d m) (c_schedule d m).
Proof. unfold t_schedule, c_schedule. er. Qed.
Lemma er_round m i s : er (t_round m i s) (c_round m i s).
Proof. unfold t_round, c_round. er. Qed.
Lemma er_transform m st s : er (t_transform m st s) (c_transform m st s).
Proof.
  unfold t_transform, c_transform. apply er_bind; [apply er_schedule|]. intros ?. er. apply er_round.
Qed.
Lemma er_update m st s a off data : er (t_update m st s a off data) (c_update m st s data).
Proof.
  unfold t_update, c_update. apply er_for. intros i s'. er. destruct (_ =? _); er. apply er_transform.
Qed.
Lemma er_pad m st s : er (t_pad m st s) (c_pad m st s).
Proof.
  unfold t_pad, c_pad. apply er_tbr. cbv zeta. er; try apply er_transform. destruct (_ <=? _); er. apply er_transform.
Qed.
Lemma er_revert s a off h : er (t_revert s a off h) (c_revert s h).
Proof. unfold t_revert, c_revert. er. Qed.
Lemma er_digest m st s a out off : er (t_digest m st s a out off) (c_digest m st s out off).
Proof.
  unfold t_digest, c_digest. apply er_bind; [apply er_pad|]. intros s' l. destruct (rd_range out off 32) as [h|]; [|reflexivity].
  pose proof (er_revert s' a off h l) as E. destruct (t_revert s' a off h l) as [[h' l']|]; cbn [option_map fst] in E; rewrite <- E; [|reflexivity].
  destruct (wr_range out off h'); reflexivity.
Qed.
Lemma fold_none {B} (f : sha -> B -> option sha) parts : fold_left (fun s p => match s with Some s => f s p | None => None end) parts None = None.
Proof. induction parts as [|p parts IH]; [reflexivity|exact IH]. Qed.
Lemma er_updates m st : forall parts s, er (t_updates m st parts s)
  (fold_left (fun s p => s <- s ;; data <- rd_range (fst (fst p)) (snd (fst p)) (snd p) ;; c_update m st s data) (map snd parts) (Some s)).
Proof.
  induction parts as [|[a [[arr off] n]] parts IH]; intros s; [apply er_ret|]. cbn [t_updates map snd fold_left fst].
  intros l. unfold bind. destruct (rd_range arr off n) as [data|].
  - pose proof (er_update m st s a off data l) as E. destruct (t_update m st s a off data l) as [[s' l']|]; cbn [option_map fst] in E; rewrite <- E; [apply IH|].
    symmetry. apply (fold_none (fun s p => data <- rd_range (fst (fst p)) (snd (fst p)) (snd p) ;; c_update m st s data)).
  - symmetry. apply (fold_none (fun s p => data <- rd_range (fst (fst p)) (snd (fst p)) (snd p) ;; c_update m st s data)).
Qed.
Lemma er_sha u parts a out off : er (t_sha u parts a out off) (H u (map snd parts) out off).
Proof. unfold t_sha, H, c_sha. apply er_bind; [apply er_updates|]. intros s. apply er_digest. Qed.
Lemma er_sha1 u a x o n b out off : er (t_sha u [(a, (x, o, n))] b out off) (H u [(x, o, n)] out off).
Proof. exact (er_sha u [(a, (x, o, n))] b out off). Qed.
Lemma er_hmac u opad ipad _key mac ain inp n akey key kl : er (t_hmac u opad ipad _key mac ain inp n akey key kl) (c_hmac u opad ipad _key mac inp n key kl).
Proof.
  unfold t_hmac, c_hmac. apply er_tbr. apply er_bind; [destruct (64 <? kl); er; apply er_sha1|]. intros kk. er; apply er_sha1.
Qed.
Lemma er_expand_loop u opad ip _key L prk info il : forall n i T h1 h2 okm w,
  er (t_expand_loop u opad ip _key n i L prk info il T h1 h2 okm w) (c_expand_loop u opad ip _key n i L prk info il T h1 h2 okm w).
Proof.
  induction n as [|n IH]; intros i T h1 h2 okm w; cbn [t_expand_loop c_expand_loop].
  - apply er_tbr. destruct (w =? L); apply er_ret.
  - apply er_tbr. apply er_bind; [apply er_logged|]. intros inf. apply er_bind; [destruct (i =? 1); er; apply er_hmac|]. intros [[T' h1'] h2'].
    apply er_tbr. cbv zeta. apply er_tbr. destruct (_ || _); er. apply IH.
Qed.
Lemma er_expand u opad ip _key T h1 h2 okm prk info il : er (t_expand u opad ip _key T h1 h2 okm prk info il) (c_expand u opad ip _key T h1 h2 okm prk info il).
Proof.
  unfold t_expand, c_expand. cbv zeta. apply er_tbr. destruct (_ <? _); [apply er_ret|]. apply er_tbr. destruct (_ || _); [apply er_ret|]. apply er_expand_loop.
Qed.
(** a logged run exists whenever the unlogged one succeeds *)
Lemma er_run {A} (t : tr A) x : er t (Some x) -> exists l, t [] = Some (x, l).
Proof. intros E. specialize (E []). destruct (t []) as [[y l]|]; [|discriminate]. injection E as ->. exists l. reflexivity. Qed.

(** * Two runs *)
Definition same {A} (R : A -> A -> Prop) (t t' : tr A) : Prop := forall l,
  match t l, t' l with Some (a, x), Some (b, y) => R a b /\ x = y | None, None => True | _, _ => False end.
Definition len {A} (a b : list A) : Prop := length a = length b.
Definition any {A} (a b : A) : Prop := True.
Lemma same_ret {A} (R : A -> A -> Prop) x y : R x y -> same R (ret x) (ret y).
Proof. intros H l. split; [exact H|reflexivity]. Qed.
Lemma same_bind {A B} (Q : A -> A -> Prop) (R : B -> B -> Prop) t t' k k' : same Q t t' -> (forall x y, Q x y -> same R (k x) (k' y)) -> same R (bind t k) (bind t' k').
Proof.
  intros Ht Hk l. unfold bind. specialize (Ht l). destruct (t l) as [[x l1]|], (t' l) as [[y l2]|]; try contradiction; [|exact I].
  destruct Ht as [Hq ->]. exact (Hk x y Hq l2).
Qed.
Lemma same_rd a s s' i : len s s' -> same any (trd a s i) (trd a s' i).
Proof.
  intros L l. unfold trd, logged, rd. destruct (i <? 0); [exact I|]. unfold len in L.
  destruct (nth_error s (Z.to_nat i)) eqn:E, (nth_error s' (Z.to_nat i)) eqn:E'; try (split; [exact I|reflexivity]); try exact I.
  - apply nth_error_None in E'. assert (X := proj1 (nth_error_Some s (Z.to_nat i)) ltac:(rewrite E; discriminate)). lia.
  - apply nth_error_None in E. assert (X := proj1 (nth_error_Some s' (Z.to_nat i)) ltac:(rewrite E'; discriminate)). lia.
Qed.
Lemma same_rd' e (s s' : list Z) i : len s s' -> same any (logged e (rd s i)) (logged e (rd s' i)).
Proof. intros L l. pose proof (same_rd AK s s' i L l) as E. unfold trd, logged in *. destruct (rd s i), (rd s' i); try exact E. split; [exact I|reflexivity]. Qed.
Lemma patch_len {A} (l l' : list A) o w w' : len l l' -> len w w' -> len (patch l o w) (patch l' o w').
Proof. unfold len, patch. intros E F. rewrite !app_length, !firstn_length, !skipn_length. lia. Qed.
Lemma same_wrange' e e' (s s' : list Z) off w w' : e = e' -> len s s' -> len w w' -> same len (logged e (wr_range s off w)) (logged e' (wr_range s' off w')).
Proof.
  intros -> L W l. unfold logged, wr_range. unfold len in L, W. rewrite <- L, <- W. destruct (_ && _); [|exact I]. split; [|reflexivity]. apply patch_len; assumption.
Qed.
Lemma same_wr e (s s' : list Z) i v v' : len s s' -> same len (logged e (wr s i v)) (logged e (wr s' i v')).
Proof. intros L. apply same_wrange'; [reflexivity|exact L|reflexivity]. Qed.
Lemma same_twr a s s' i v v' : len s s' -> same len (twr a s i v) (twr a s' i v'). Proof. apply same_wr. Qed.
Lemma same_wrange a s s' off w w' : len s s' -> len w w' -> same len (twrange a s off w) (twrange a s' off w').
Proof. intros L W. unfold twrange. unfold len in W. rewrite W. apply same_wrange'; [reflexivity|exact L|exact W]. Qed.
Lemma rd_range_len (s s' : list Z) off n : len s s' -> match rd_range s off n, rd_range s' off n with Some a, Some b => len a b | None, None => True | _, _ => False end.
Proof.
  unfold len, rd_range. intros L. rewrite <- L. destruct (_ && _); [|exact I]. unfold len. rewrite !firstn_length, !skipn_length, L. reflexivity.
Qed.
Lemma same_range a s s' off n : len s s' -> same len (trange a s off n) (trange a s' off n).
Proof.
  intros L l. unfold trange, logged. pose proof (rd_range_len s s' off n L) as E. destruct (rd_range s off n), (rd_range s' off n); try contradiction; [|exact I].
  split; [exact E|reflexivity].
Qed.
Lemma same_tbr {B} (R : B -> B -> Prop) b k k' : same R (k b) (k' b) -> same R (bind (tbr b) k) (bind (tbr b) k').
Proof. intros H l. unfold bind, tbr, logged. apply H. Qed.
Lemma same_for {S} (R : S -> S -> Prop) (body body' : Z -> S -> tr S) : (forall i s s', R s s' -> same R (body i s) (body' i s')) ->
  forall n i s s', R s s' -> same R (tfor n i body s) (tfor n i body' s').
Proof.
  intros H n. induction n as [|n IH]; intros i s s' E; cbn [tfor]; [apply same_ret, E|]. apply (same_bind R); [apply H, E|]. intros x y. apply IH.
Qed.
Ltac sm_step := lazymatch goal with
  | |- same _ (trd _ _ _) _ => apply same_rd; assumption
  | |- same _ (twr _ _ _ _) _ => apply same_twr; assumption
  | |- same _ (trange _ _ _ _) _ => apply same_range; assumption
  | |- same _ (logged _ (rd _ _)) _ => apply same_rd'; assumption
  | |- same _ (logged _ (wr _ _ _)) _ => apply same_wr; assumption
  | |- same _ (bind (tbr _) _) _ => apply same_tbr
  | |- same _ (bind _ _) _ => eapply same_bind; [sm_step|intros ? ? ?]
  end.
Ltac sm := repeat (cbv beta zeta; sm_step).

Lemma same_schedule d d' m m' : len d d' -> len m m' -> same len (t_schedule d m) (t_schedule d' m').
Proof.
  intros D E. unfold t_schedule. eapply same_bind; [apply same_for; [|exact E]; intros i s s' L; sm|].
  intros x y L. apply same_for; [|exact L]. intros i s s' L'. sm.
Qed.
Lemma same_round m m' i s s' : len m m' -> len s s' -> same len (t_round m i s) (t_round m' i s').
Proof.
  intros E L. assert (K : len sha_K sha_K) by reflexivity. unfold t_round. sm.
Qed.
Definition sim (s s' : sha) : Prop := len (m_data s) (m_data s') /\ m_blocklen s = m_blocklen s' /\ len (m_state s) (m_state s').
Lemma same_transform m m' st st' s s' : len m m' -> len st st' -> sim s s' -> same sim (t_transform m st s) (t_transform m' st' s').
Proof.
  intros E F (D & B & S). unfold t_transform. eapply same_bind; [apply same_schedule; assumption|]. intros m1 m1' E1.
  eapply same_bind; [apply same_for; [|exact F]; intros i x y L; sm|]. intros x y L.
  eapply same_bind; [apply same_for; [|exact L]; intros; apply same_round; assumption|]. intros x1 y1 L1.
  eapply same_bind; [apply same_for; [|exact S]; intros i x2 y2 L2; sm|]. intros x2 y2 L2. apply same_ret. repeat split; assumption.
Qed.
Lemma same_update m m' st st' s s' a off d d' : len m m' -> len st st' -> sim s s' -> len d d' -> same sim (t_update m st s a off d) (t_update m' st' s' a off d').
Proof.
  intros E F S L. unfold t_update. rewrite L. apply same_for; [|exact S]. clear s s' S. intros i s s' (D & B & S).
  eapply same_bind; [apply same_rd', L|]. intros x y _. rewrite <- B. eapply same_bind; [apply same_twr, D|]. intros d1 d1' D1.
  cbn [m_blocklen]. apply same_tbr. destruct (_ =? _).
  - eapply same_bind; [apply same_transform; [exact E|exact F|]; repeat split; assumption|]. intros t t' (T1 & T2 & T3). apply same_ret. repeat split; assumption.
  - apply same_ret. repeat split; assumption.
Qed.
Lemma same_pad m m' st st' s s' : len m m' -> len st st' -> sim s s' -> same sim (t_pad m st s) (t_pad m' st' s').
Proof.
  intros E F (D & B & S). unfold t_pad. rewrite <- B. apply same_tbr. eapply same_bind; [apply same_twr, D|]. intros d d' D1.
  eapply same_bind; [apply same_for; [|exact D1]; intros; sm|]. intros d2 d2' D2. cbv zeta. cbn [m_blocklen]. apply same_tbr.
  eapply (same_bind sim); [destruct (_ <=? _)|].
  - eapply same_bind; [apply same_transform; [exact E|exact F|]; repeat split; assumption|]. intros t t' (T1 & T2 & T3).
    eapply same_bind; [apply same_wrange; [exact T1|reflexivity]|]. intros d3 d3' D3. apply same_ret. repeat split; assumption.
  - apply same_ret. repeat split; assumption.
  - intros t t' (T1 & T2 & T3). do 8 (eapply same_bind; [apply same_twr; eassumption|intros ? ? ?]).
    apply same_transform; [exact E|exact F|]. repeat split; assumption.
Qed.
Lemma same_revert s s' a off h h' : sim s s' -> len h h' -> same len (t_revert s a off h) (t_revert s' a off h').
Proof.
  intros (_ & _ & S) L. unfold t_revert. apply same_for; [|exact L]. intros i x y L1. apply same_for; [|exact L1]. intros j x1 y1 L2. sm.
Qed.
Lemma same_digest m m' st st' s s' a out out' off : len m m' -> len st st' -> sim s s' -> len out out' ->
  same len (t_digest m st s a out off) (t_digest m' st' s' a out' off).
Proof.
  intros E F S L. unfold t_digest. eapply same_bind; [apply same_pad; eassumption|]. intros t t' T l.
  pose proof (rd_range_len out out' off 32 L) as P. destruct (rd_range out off 32) as [h|], (rd_range out' off 32) as [h'|]; try contradiction; [|exact I].
  pose proof (same_revert t t' a off h h' T P l) as Q. destruct (t_revert t a off h l) as [[x lx]|], (t_revert t' a off h' l) as [[y ly]|]; try contradiction; [|exact I].
  destruct Q as [Q ->]. pose proof (same_wrange a out out' off x y L Q ly) as W. unfold twrange, logged in W.
  destruct (wr_range out off x), (wr_range out' off y); try contradiction; [|exact I]. destruct W as [W _]. split; [exact W|reflexivity].
Qed.
(** parts of the same shape: same arrays, array lengths, offsets and lengths *)
Definition shape (p q : tpart) : Prop := fst p = fst q /\ len (fst (fst (snd p))) (fst (fst (snd q))) /\ snd (fst (snd p)) = snd (fst (snd q)) /\ snd (snd p) = snd (snd q).
Lemma same_updates m m' st st' : len m m' -> len st st' -> forall parts parts', Forall2 shape parts parts' -> forall s s', sim s s' ->
  same sim (t_updates m st parts s) (t_updates m' st' parts' s').
Proof.
  intros E F parts parts' P. induction P as [|[a [[x o] n]] [a' [[x' o'] n']] parts parts' (H1 & H2 & H3 & H4) P IH]; intros s s' S; cbn [t_updates]; [apply same_ret, S|].
  cbn [fst snd] in H1, H2, H3, H4. subst a' o' n'. eapply same_bind; [|intros; apply IH; eassumption].
  intros l. pose proof (rd_range_len x x' o n H2) as Q. destruct (rd_range x o n) as [h|], (rd_range x' o n) as [h'|]; try contradiction; [|exact I].
  exact (same_update m m' st st' s s' a o h h' E F S Q l).
Qed.
Definition junk_like (u u' : junk) : Prop := len (u_m u) (u_m u') /\ len (u_st u) (u_st u') /\ len (u_d0 u) (u_d0 u').
Lemma same_sha u u' parts parts' a out out' off : junk_like u u' -> Forall2 shape parts parts' -> len out out' -> same len (t_sha u parts a out off) (t_sha u' parts' a out' off).
Proof.
  intros (A & B & C) P L. unfold t_sha. eapply same_bind; [apply same_updates; try eassumption; repeat split; exact C|]. intros s s' S. apply same_digest; assumption.
Qed.
Lemma same_sha1 u u' a x x' o n b out out' off : junk_like u u' -> len x x' -> len out out' -> same len (t_sha u [(a, (x, o, n))] b out off) (t_sha u' [(a, (x', o, n))] b out' off).
Proof. intros J X L. apply same_sha; [exact J| |exact L]. constructor; [|constructor]. repeat split; assumption. Qed.
Definition pairlen {A} (p q : list A * list A) : Prop := len (fst p) (fst q) /\ len (snd p) (snd q).
Lemma same_hmac u u' o o' i i' k k' mac mac' ain x x' n akey key key' kl : junk_like u u' -> len o o' -> len i i' -> len k k' -> len mac mac' -> len x x' -> len key key' ->
  same len (t_hmac u o i k mac ain x n akey key kl) (t_hmac u' o' i' k' mac' ain x' n akey key' kl).
Proof.
  intros J O P K M X Y. unfold t_hmac. apply same_tbr.
  eapply (same_bind (fun p q => pairlen (fst p) (fst q) /\ snd p = snd q)); [destruct (64 <? kl)|].
  - eapply same_bind; [apply same_sha1; eassumption|]. intros a b L. apply same_ret. repeat split; assumption.
  - apply same_ret. repeat split; assumption.
  - intros [[a b] c] [[a' b'] c'] ((L1 & L2) & L3). cbn [fst snd] in L1, L2, L3 |- *. subst c'.
    eapply same_bind; [apply same_range; eassumption|]. intros s s' S. eapply same_bind; [apply same_wrange; eassumption|]. intros k1 k1' K1.
    eapply same_bind; [apply same_wrange; [exact K1|reflexivity]|]. intros k2 k2' K2.
    eapply (same_bind pairlen); [apply same_for; [|split; assumption]|].
    + intros j [p q] [p' q'] [Q1 Q2]. cbn [fst snd] in Q1, Q2 |- *. sm. apply same_ret. split; assumption.
    + intros [p q] [p' q'] [Q1 Q2]. cbn [fst snd] in Q1, Q2 |- *. eapply same_bind; [apply same_range; eassumption|]. intros s1 s1' S1.
      eapply same_bind; [apply same_wrange; eassumption|]. intros q1 q1' Q3. eapply same_bind; [apply same_sha1; eassumption|]. intros o1 o1' O1. apply same_sha1; assumption.
Qed.
Definition triple (p q : list Z * list Z * list Z) : Prop := pairlen (fst p) (fst q) /\ len (snd p) (snd q).
Definition reslen (p q : Z * list Z) : Prop := fst p = fst q /\ len (snd p) (snd q).
Lemma same_expand_loop u u' o o' ip ip' k k' L prk prk' info info' il : junk_like u u' -> len o o' -> 0 <= il -> (forall n, 0 <= n -> len (ip n) (ip' n)) -> len k k' -> len prk prk' -> len info info' ->
  forall n i T T' h1 h1' h2 h2' okm okm' w, len T T' -> len h1 h1' -> len h2 h2' -> len okm okm' ->
  same reslen (t_expand_loop u o ip k n i L prk info il T h1 h2 okm w) (t_expand_loop u' o' ip' k' n i L prk' info' il T' h1' h2' okm' w).
Proof.
  intros J O IL P K PR IN. induction n as [|n IH]; intros i T T' h1 h1' h2 h2' okm okm' w LT L1 L2 LO; cbn [t_expand_loop].
  - apply same_tbr. destruct (w =? L); apply same_ret; (split; [reflexivity|exact LO]).
  - apply same_tbr. eapply same_bind; [apply same_range; eassumption|]. intros f f' F. eapply (same_bind triple); [destruct (i =? 1)|].
    + eapply same_bind; [apply same_wrange; eassumption|]. intros a a' A. eapply same_bind; [apply same_twr; eassumption|]. intros b b' Bb.
      eapply same_bind; [apply same_hmac; try eassumption; apply P; lia|]. intros c c' C. apply same_ret. repeat split; assumption.
    + eapply same_bind; [apply same_range; eassumption|]. intros t t' Tt. eapply same_bind; [apply same_wrange; eassumption|]. intros a a' A.
      eapply same_bind; [apply same_wrange; eassumption|]. intros d d' D. eapply same_bind; [apply same_twr; eassumption|]. intros b b' Bb.
      eapply same_bind; [apply same_hmac; try eassumption; apply P; lia|]. intros c c' C. apply same_ret. repeat split; assumption.
    + intros [[a b] c] [[a' b'] c'] ((A & Bb) & C). cbn [fst snd] in A, Bb, C. cbv zeta. apply same_tbr. apply same_tbr.
      destruct (_ || _); [apply same_ret; split; [reflexivity|exact LO]|].
      eapply same_bind; [apply same_range; eassumption|]. intros s s' S. eapply same_bind; [apply same_wrange; eassumption|]. intros k1 k1' K1. apply IH; assumption.
Qed.
Lemma same_expand u u' o o' ip ip' k k' T T' h1 h1' h2 h2' okm okm' prk prk' info info' il : junk_like u u' -> len o o' -> 0 <= il -> (forall n, 0 <= n -> len (ip n) (ip' n)) -> len k k' ->
  len T T' -> len h1 h1' -> len h2 h2' -> len okm okm' -> len prk prk' -> len info info' ->
  same reslen (t_expand u o ip k T h1 h2 okm prk info il) (t_expand u' o' ip' k' T' h1' h2' okm' prk' info' il).
Proof.
  intros J O IL P K LT L1 L2 LO PR IN. unfold t_expand. rewrite LO. cbv zeta. apply same_tbr. destruct (_ <? _); [apply same_ret; split; [reflexivity|exact LO]|].
  apply same_tbr. destruct (_ || _); [apply same_ret; split; [reflexivity|exact LO]|]. apply same_expand_loop; assumption.
Qed.
Lemma same_log {A} (R : A -> A -> Prop) t t' x y l l' : same R t t' -> t [] = Some (x, l) -> t' [] = Some (y, l') -> l = l'.
Proof. intros S E E'. specialize (S []). rewrite E, E' in S. apply S. Qed.

(** * What the log contains *)
Definition arr_eqb (a b : arr) : bool :=
  match a, b with
  | AData, AData | AState, AState | AM, AM | ASt, ASt | AK, AK => true
  | AUser i, AUser j => i =? j
  | _, _ => false
  end.
(** accesses of an array, branches *)
Definition on (a : arr) (e : ev) : bool :=
  match e with ERd b _ | EWr b _ | ERange b _ _ | EWrange b _ _ => arr_eqb a b | EBr _ => false end.
Definition is_br (e : ev) : bool := match e with EBr _ => true | _ => false end.
(** t puts the entries d (newest first) on the log, as far as f is concerned *)
Definition puts {A} (f : ev -> bool) (t : tr A) (d : list ev) : Prop := forall l x l', t l = Some (x, l') -> filter f l' = d ++ filter f l.
Lemma puts_ret {A} f (x : A) : puts f (ret x) [].
Proof. intros l y l' E. injection E as _ <-. reflexivity. Qed.
Lemma puts_logged {A} f e (o : option A) : puts f (logged e o) (if f e then [e] else []).
Proof. intros l x l' E. unfold logged in E. destruct o; [|discriminate]. injection E as _ <-. cbn [filter]. destruct (f e); reflexivity. Qed.
Lemma puts_bind {A B} f (t : tr A) (k : A -> tr B) d d' : puts f t d -> (forall x, puts f (k x) d') -> puts f (bind t k) (d' ++ d).
Proof.
  intros H K l y l' E. unfold bind in E. destruct (t l) as [[x l1]|] eqn:Et; [|discriminate]. rewrite (K x _ _ _ E), (H _ _ _ Et), app_assoc. reflexivity.
Qed.
Lemma puts_bind0 {A B} f (t : tr A) (k : A -> tr B) d : puts f t [] -> (forall x, puts f (k x) d) -> puts f (bind t k) d.
Proof. intros H K. rewrite <- (app_nil_r d). apply puts_bind; assumption. Qed.
Fixpoint laps (n : nat) (i : Z) (g : Z -> list ev) : list ev := match n with O => [] | S n => laps n (i + 1) g ++ g i end.
Lemma puts_for {S} f (body : Z -> S -> tr S) g : (forall i s, puts f (body i s) (g i)) -> forall n i s, puts f (tfor n i body s) (laps n i g).
Proof.
  intros H n. induction n as [|n IH]; intros i s; cbn [tfor laps]; [apply puts_ret|]. apply puts_bind; [apply H|]. intros x. apply IH.
Qed.
Lemma laps_nil n : forall i, laps n i (fun _ => []) = []. Proof. induction n as [|n IH]; intros i; [reflexivity|]. cbn [laps]. rewrite IH. reflexivity. Qed.
Lemma puts_for0 {S} f (body : Z -> S -> tr S) : (forall i s, puts f (body i s) []) -> forall n i s, puts f (tfor n i body s) [].
Proof. intros H n i s. rewrite <- (laps_nil n i). apply puts_for. exact H. Qed.
Lemma puts_no {A} f e (o : option A) : f e = false -> puts f (logged e o) [].
Proof. intros E. pose proof (puts_logged f e o) as P. rewrite E in P. exact P. Qed.
(** filters that see nothing of the five arrays of the class *)
Definition blind (f : ev -> bool) : Prop := forall a i n, (forall k, a <> AUser k) -> f (ERd a i) = false /\ f (EWr a i) = false /\ f (EWrange a i n) = false.
Lemma blind_user k : blind (on (AUser k)).
Proof. intros a i n H. cbn [on]. destruct a; cbn [arr_eqb]; try (repeat split; reflexivity). exfalso. apply (H n0). reflexivity. Qed.
Lemma blind_br : blind is_br. Proof. intros a i n _. repeat split. Qed.
Section Blind.
Variable f : ev -> bool.
Hypothesis F : blind f.
Lemma no_rd a s i : (forall k, a <> AUser k) -> puts f (trd a s i) []. Proof. intros N. apply puts_no. apply (F a i 0 N). Qed.
Lemma no_wr a s i v : (forall k, a <> AUser k) -> puts f (twr a s i v) []. Proof. intros N. apply puts_no. apply (F a i 0 N). Qed.
Lemma no_wrange a s i w : (forall k, a <> AUser k) -> puts f (twrange a s i w) []. Proof. intros N. apply puts_no. apply (F a i _ N). Qed.
Ltac no_step := lazymatch goal with
  | |- puts _ (ret _) _ => apply puts_ret
  | |- puts _ (trd _ _ _) _ => apply no_rd; discriminate
  | |- puts _ (twr _ _ _ _) _ => apply no_wr; discriminate
  | |- puts _ (twrange _ _ _ _) _ => apply no_wrange; discriminate
  | |- puts _ (bind (tbr _) _) _ => fail
  | |- puts _ (bind _ _) _ => apply puts_bind0; [|intros ?]
  | |- puts _ (tfor _ _ _ _) _ => apply puts_for0; intros ? ?
  end.
Ltac no := repeat (cbv beta zeta; no_step).
Lemma no_transform m st s : puts f (t_transform m st s) [].
Proof. unfold t_transform, t_schedule. no. unfold t_round. no. Qed.
Lemma puts_update m st a off data s : (forall b, f (EBr b) = false) ->
  puts f (t_update m st s a off data) (laps (length data) 0 (fun i => if f (ERd a (off + i)) then [ERd a (off + i)] else [])).
Proof.
  intros B. unfold t_update. apply puts_for. intros i s'.
  refine (puts_bind f _ _ (if f (ERd a (off + i)) then [ERd a (off + i)] else []) [] (puts_logged _ _ _) _). intros x.
  apply puts_bind0; [apply no_wr; discriminate|]. intros d. apply puts_bind0; [apply puts_no, B|]. intros b. destruct b; no. apply no_transform.
Qed.
Lemma puts_pad m st s : (forall b, f (EBr b) = false) -> puts f (t_pad m st s) [].
Proof.
  intros B. unfold t_pad. apply puts_bind0; [apply puts_no, B|]. intros b. no; try apply no_transform.
  apply puts_bind0; [apply puts_no, B|]. intros c. no; try apply no_transform. destruct c; no. apply no_transform.
Qed.
Lemma puts_revert s a off h : puts f (t_revert s a off h)
  (laps 4 0 (fun i => laps 8 0 (fun j => if f (EWr a (off + (i + j * 4))) then [EWr a (off + (i + j * 4))] else []))).
Proof.
  unfold t_revert. apply (puts_for f _ (fun i => laps 8 0 (fun j => if f (EWr a (off + (i + j * 4))) then [EWr a (off + (i + j * 4))] else []))).
  intros i x. apply (puts_for f _ (fun j => if f (EWr a (off + (i + j * 4))) then [EWr a (off + (i + j * 4))] else [])). intros j y.
  apply puts_bind0; [apply no_rd; discriminate|]. intros z. apply puts_logged.
Qed.
End Blind.

(** number of entries *)
Definition cnt {A} (f : ev -> bool) (t : tr A) (n : nat) : Prop := forall l x l', t l = Some (x, l') -> length (filter f l') = (n + length (filter f l))%nat.
Lemma cnt_puts {A} f (t : tr A) d : puts f t d -> cnt f t (length d).
Proof. intros P l x l' E. rewrite (P l x l' E), app_length. reflexivity. Qed.
Lemma cnt_bind {A B} f (t : tr A) (k : A -> tr B) n m : cnt f t n -> (forall x, cnt f (k x) m) -> cnt f (bind t k) (n + m).
Proof.
  intros H K l y l' E. unfold bind in E. destruct (t l) as [[x l1]|] eqn:Et; [|discriminate]. rewrite (K x _ _ _ E), (H _ _ _ Et). lia.
Qed.
Lemma cnt_for1 {S} f (body : Z -> S -> tr S) : (forall i s, cnt f (body i s) 1) -> forall n i s, cnt f (tfor n i body s) n.
Proof.
  intros H n. induction n as [|n IH]; intros i s; cbn [tfor]; [exact (cnt_puts f _ [] (puts_ret f s))|]. apply (cnt_bind f _ _ 1 n); [apply H|]. intros x. apply IH.
Qed.
Lemma cnt_tbr b : cnt is_br (tbr b) 1. Proof. exact (cnt_puts _ _ [EBr b] (puts_logged is_br (EBr b) (Some b))). Qed.
Lemma cnt0 {A} f (t : tr A) : puts f t [] -> cnt f t 0. Proof. exact (cnt_puts f t []). Qed.
Lemma cnt_update m st a off data s : cnt is_br (t_update m st s a off data) (length data).
Proof.
  unfold t_update. apply cnt_for1. intros i s'. refine (cnt_bind _ _ _ 0 1 (cnt0 _ _ (puts_no _ _ _ eq_refl)) _). intros x.
  refine (cnt_bind _ _ _ 0 1 (cnt0 _ _ (puts_no _ _ _ eq_refl)) _). intros d. refine (cnt_bind _ _ _ 1 0 (cnt_tbr _) _). intros b. apply cnt0.
  destruct b; [|apply puts_ret]. apply puts_bind0; [apply no_transform, blind_br|]. intros y. apply puts_ret.
Qed.
Lemma cnt_pad m st s : cnt is_br (t_pad m st s) 2.
Proof.
  unfold t_pad. refine (cnt_bind _ _ _ 1 1 (cnt_tbr _) _). intros b. cbv zeta. refine (cnt_bind _ _ _ 0 1 (cnt0 _ _ (puts_no _ _ _ eq_refl)) _). intros d.
  refine (cnt_bind _ _ _ 0 1 (cnt0 _ _ (puts_for0 _ _ (fun i s => puts_no _ _ _ eq_refl) _ _ _)) _). intros d2. refine (cnt_bind _ _ _ 1 0 (cnt_tbr _) _). intros c. apply cnt0.
  apply puts_bind0.
  - destruct c; [|apply puts_ret]. apply puts_bind0; [apply no_transform, blind_br|]. intros y. apply puts_bind0; [apply puts_no; reflexivity|]. intros z. apply puts_ret.
  - intros y. do 8 (apply puts_bind0; [apply puts_no; reflexivity|intros ?]). apply no_transform, blind_br.
Qed.
Lemma cnt_revert s a off h : cnt is_br (t_revert s a off h) 0.
Proof.
  apply cnt0. unfold t_revert. apply puts_for0. intros i x. apply puts_for0. intros j y. apply puts_bind0; [apply puts_no; reflexivity|]. intros z. apply puts_no. reflexivity.
Qed.
Lemma digest_run m st s a out off l r l' : t_digest m st s a out off l = Some (r, l') ->
  exists s1 l1 h h', t_pad m st s l = Some (s1, l1) /\ t_revert s1 a off h l1 = Some (h', l').
Proof.
  unfold t_digest, bind. destruct (t_pad m st s l) as [[s1 l1]|]; [|discriminate]. destruct (rd_range out off 32) as [h|]; [|discriminate].
  destruct (t_revert s1 a off h l1) as [[h' l2]|] eqn:E; [|discriminate]. destruct (wr_range out off h'); [|discriminate]. intros X. injection X as _ <-.
  exists s1, l1, h, h'. split; [reflexivity|exact E].
Qed.
Lemma sha1_run u a x o n b out off r l' : t_sha u [(a, (x, o, n))] b out off [] = Some (r, l') ->
  exists data s0 l0 s1 l1 h h', rd_range x o n = Some data /\ t_update (u_m u) (u_st u) (sha_init (u_d0 u)) a o data [] = Some (s0, l0) /\
    t_pad (u_m u) (u_st u) s0 l0 = Some (s1, l1) /\ t_revert s1 b off h l1 = Some (h', l').
Proof.
  unfold t_sha. cbn [t_updates]. unfold bind at 1 2. destruct (rd_range x o n) as [data|]; [|discriminate].
  destruct (t_update (u_m u) (u_st u) (sha_init (u_d0 u)) a o data []) as [[s0 l0]|] eqn:U; [|discriminate]. unfold ret. intros E.
  destruct (digest_run _ _ _ _ _ _ _ _ _ E) as (s1 & l1 & h & h' & E1 & E2). exists data, s0, l0, s1, l1, h, h'. split; [reflexivity|]. split; [exact U|]. split; assumption.
Qed.
Lemma laps_reads n : forall i a, laps n i (fun i => [ERd a i]) = rev (map (fun k => ERd a (i + Z.of_nat k)) (seq 0 n)).
Proof.
  induction n as [|n IH]; intros i a; [reflexivity|]. cbn [laps seq map rev]. rewrite IH, <- seq_shift, map_map. f_equal; [|f_equal; f_equal; lia].
  f_equal. apply map_ext. intros k. f_equal. lia.
Qed.
Lemma laps_ext n g g' : (forall i, g i = g' i) -> forall i, laps n i g = laps n i g'.
Proof. intros H. induction n as [|n IH]; intros i; [reflexivity|]. cbn [laps]. rewrite IH, H. reflexivity. Qed.
Lemma sha1_log u i j x n out off r log : i <> j -> length x = n -> t_sha u [(AUser i, (x, 0, Z.of_nat n))] (AUser j) out off [] = Some (r, log) ->
  filter (on (AUser i)) log = rev (map (fun k => ERd (AUser i) (Z.of_nat k)) (seq 0 n)) /\
  filter (on (AUser j)) log = laps 4 0 (fun p => laps 8 0 (fun q => [EWr (AUser j) (off + (p + q * 4))])) /\
  length (filter is_br log) = (n + 2)%nat.
Proof.
  intros Nij L E. destruct (sha1_run _ _ _ _ _ _ _ _ _ _ E) as (data & s0 & l0 & s1 & l1 & h & h' & R & E1 & E2 & E3).
  assert (Ld : length data = n).
  { unfold rd_range in R. destruct (_ && _); [|discriminate]. injection R as <-. change (skipn (Z.to_nat 0) x) with x. rewrite firstn_length, Nat2Z.id, L. apply Nat.min_id. }
  assert (Fi : forall b, on (AUser i) (EBr b) = false) by reflexivity. assert (Fj : forall b, on (AUser j) (EBr b) = false) by reflexivity.
  split; [|split].
  - rewrite (puts_revert _ (blind_user i) _ _ _ _ _ _ _ E3), (puts_pad _ (blind_user i) _ _ _ Fi _ _ _ E2), (puts_update _ (blind_user i) _ _ _ _ _ _ Fi _ _ _ E1).
    cbn [filter on arr_eqb app]. rewrite app_nil_r, Ld, Z.eqb_refl, (proj2 (Z.eqb_neq i j) Nij).
    rewrite (laps_ext 4 _ (fun _ => [])) by (intros; apply laps_nil). rewrite laps_nil. cbn [app]. rewrite (laps_reads n 0). reflexivity.
  - rewrite (puts_revert _ (blind_user j) _ _ _ _ _ _ _ E3), (puts_pad _ (blind_user j) _ _ _ Fj _ _ _ E2), (puts_update _ (blind_user j) _ _ _ _ _ _ Fj _ _ _ E1).
    cbn [filter on arr_eqb app]. rewrite Z.eqb_refl, (proj2 (Z.eqb_neq j i)) by congruence. rewrite laps_nil, !app_nil_r. reflexivity.
  - rewrite (cnt_revert _ _ _ _ _ _ _ E3), (cnt_pad _ _ _ _ _ _ E2), (cnt_update _ _ _ _ _ _ _ _ _ E1), Ld. cbn [filter length]. lia.
Qed.
