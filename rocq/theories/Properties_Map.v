(** Property C35 (maps to the curves) and the effective cofactor of C55.
    map_to_curve1 / map_to_curve2 (SpecMap.v) are the maps of RFC 9380: simplified SWU to an isogenous curve followed by the isogeny, with
    sign and exceptional cases as there.  canon e: e is below p; dec e: the field element that the Montgomery form e denotes. *)
From Coq Require Import ZArith List Bool Lia.
From Verif Require Import SpecField FieldProof TowerProof ModelWord ModelPrim ModelScalar ModelFp ModelTower FpProof TowerRefine.
From Verif Require Import SpecCurve AbGroup CurveProof ModelCurve CurveRefine CurveInst CurveBase CurveReps Endo SubgroupProof GenProof Orders Cofactor ModelMap SpecMap MapProof MapComp MapConst MapG1 MapG2.
Import ListNotations.
Local Open Scope Z_scope.

(** The specification defines a function: every field element has exactly one image. *)
Theorem C35_spec_total : (forall u : Fp, exists P, map_to_curve1 u P) /\ (forall u P Q, map_to_curve1 u P -> map_to_curve1 u Q -> P = Q) /\
  (forall u : Fp2, exists P, map_to_curve2 u P) /\ (forall u P Q, map_to_curve2 u P -> map_to_curve2 u Q -> P = Q).
Proof.
  split; [|split; [exact map1_fun|split; [|exact map2_fun]]].
  - intros u. destruct (map1_ex u) as (x & y & H). eexists. exists x, y. split; [exact H|reflexivity].
  - intros u. destruct (swu_iso2 (enc2 u) (canon2_enc u)) as (P & H & _). rewrite dec2_enc in H. eexists. exact H.
Qed.
(** swuMapG1 and swuMapG2 compute simplified SWU on every input, including the exceptional ones. *)
Theorem C35_swuMapG1 : forall e, canon e -> canon (fst (swuMapG1 e)) /\ canon (snd (swuMapG1 e)) /\
  sswu (K := KFp) sgn0_1 A1' B1' Z1 (dec e) (dec (fst (swuMapG1 e))) (dec (snd (swuMapG1 e))).
Proof. intros e He. destruct (swu1_ok e He) as (x & y & [C1 <-] & [C2 <-] & H). auto. Qed.
Theorem C35_swuMapG2 : forall e, canon2 e -> canon2 (fst (swuMapG2 e)) /\ canon2 (snd (swuMapG2 e)) /\
  sswu (K := KFp2) sgn0_2 A2' B2' Z2 (dec2 e) (dec2 (fst (swuMapG2 e))) (dec2 (snd (swuMapG2 e))).
Proof. intros e He. destruct (swu2_ok e He) as (x & y & [C1 <-] & [C2 <-] & H). auto. Qed.
(** G2: for every input the result is the specified point times the effective cofactor; it is on the curve and in the subgroup. *)
Theorem C35_g2_mapToCurve : forall e, canon2 e -> exists P : E2, map_to_curve2 (dec2 e) (cpt (b := b2) P) /\ rep2g (g2_mapToCurve e) (zmul h_eff2 P) /\ zmul order (zmul h_eff2 P) = gid.
Proof. intros e He. destruct (map2_rep e He) as (P & H1 & H2). exists P. split; [exact H1|]. split; [exact H2|]. apply heff2_order. Qed.
Theorem C35_g2_mapToCurve_valid : forall e, canon2 e -> g2_isOnCurve (g2_mapToCurve e) = true /\ g2_inCorrectSubgroup (g2_mapToCurve e) = true.
Proof.
  intros e He. destruct (map2_rep e He) as (P & _ & H). split; [exact (rep2g_onCurve _ _ H)|]. apply (g2_inCorrectSubgroup_ok _ _ H), heff2_order.
Qed.
(** G1: the same whenever the specified point is not the point at infinity. *)
Theorem C35_g1_mapToCurve : forall e P, canon e -> map_to_curve1 (dec e) P -> P <> Inf ->
  exists Q : E1, cpt (b := b1) Q = P /\ rep1g (g1_mapToCurve e) (zmul h_eff1 Q) /\ zmul order (zmul h_eff1 Q) = gid /\
    g1_isOnCurve (g1_mapToCurve e) = true /\ g1_inCorrectSubgroup (g1_mapToCurve e) = true.
Proof.
  intros e P He (x & y & H & ->) N. rewrite rm_kernel in N. destruct (map1_rep e x y He H N) as (Q & HQ & Hr). exists Q. split; [exact HQ|]. split; [exact Hr|].
  split; [exact (n1_order Q)|]. split; [exact (rep1g_onCurve _ _ Hr)|]. apply (g1_inCorrectSubgroup_ok _ _ Hr). exact (n1_order Q).
Qed.
(** ... but on the inputs whose image is the point at infinity the code returns (0, 0, 1), which is not on the curve. *)
Theorem C35_g1_mapToCurve_onCurve : forall e P, canon e -> map_to_curve1 (dec e) P -> (g1_isOnCurve (g1_mapToCurve e) = true <-> P <> Inf).
Proof.
  intros e P He (x & y & H & ->). rewrite rm_kernel. split.
  - intros O Z. rewrite (map1_ker e x y He H Z), off_00 in O. discriminate O.
  - intros N. destruct (map1_rep e x y He H N) as (Q & _ & Hr). exact (rep1g_onCurve _ _ Hr).
Qed.
(** Such inputs exist: the unrestricted property fails for G1. *)
Theorem C35_g1_mapToCurve_refuted : exists e, canon e /\ map_to_curve1 (dec e) Inf /\ g1_isOnCurve (g1_mapToCurve e) = false.
Proof.
  exists (enc u_ker). split; [apply canon_enc|]. rewrite dec_enc. split.
  - exists x_ker, y_ker. split; [exact ker_sswu|]. symmetry. apply rm_kernel, ker_xd.
  - rewrite (map1_ker (enc u_ker) x_ker y_ker (canon_enc _)); [exact off_00|rewrite dec_enc; exact ker_sswu|exact ker_xd].
Qed.
Example C35_nontrivial : canon 0 /\ exists P, map_to_curve1 (dec 0) P /\ P <> Inf.
Proof.
  split; [exact canon_0|]. rewrite dec_0. eexists. split; [exists v1, sv1; split; [exact zero_sswu|reflexivity]|]. rewrite rm_kernel. exact zero_xd.
Qed.
(** C55: g2::clearCofactor multiplies by the effective cofactor of RFC 9380, 8.8.2 on the whole curve. *)
Theorem C55_clearCofactor_g2 : forall p P, rep2g p P -> rep2g (g2_clearCofactor p) (zmul h_eff2 P).
Proof. exact g2_clear_heff. Qed.
Theorem C55_clearCofactor_heff1 : forall p P, rep1g p P -> rep1g (g1_clearCofactor p) (zmul h_eff1 P).
Proof. exact g1_clearCofactor_ok. Qed.

Definition props_map := (C35_spec_total, C35_swuMapG1, C35_swuMapG2, C35_g2_mapToCurve, C35_g2_mapToCurve_valid, C35_g1_mapToCurve, C35_g1_mapToCurve_onCurve, C35_g1_mapToCurve_refuted, C55_clearCofactor_g2, C55_clearCofactor_heff1).
Print Assumptions props_map.
