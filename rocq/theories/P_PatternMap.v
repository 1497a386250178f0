(** Property theorems for triple pattern maps: C43, C44. *)
From Coq Require Import List Bool Arith Permutation.
Import ListNotations.
From Verif Require Import Base TripleModel TriplePatternModel PatternSpec PatternMapModel
  PatternMapSpec PatternMapProofs.

(** C43: after any insertions, [get t] answers with the value of every inserted
    pair whose pattern matches [t], once per pair, and with nothing else. *)
Theorem c43_get_answers : forall V T (veqb : V -> V -> bool) (teqb : T -> T -> bool),
  (forall x y, veqb x y = true <-> x = y) -> (forall x y, teqb x y = true <-> x = y) ->
  forall (l : list (ctp T * V)) (t : triple T),
  answers (tpm_get teqb (snd (insert_all (tpm_insert veqb teqb) l tpm_default)) t)
    (fun c v => In (c, v) l /\ ct_matches c t).
Proof. exact @tpm_get_history. Qed.
Print Assumptions c43_get_answers.

(** C43: the n-th insertion returns true iff its pair was not inserted before. *)
Theorem c43_insert_new : forall V T (veqb : V -> V -> bool) (teqb : T -> T -> bool),
  (forall x y, veqb x y = true <-> x = y) -> (forall x y, teqb x y = true <-> x = y) ->
  forall (l : list (ctp T * V)),
  length (fst (insert_all (tpm_insert veqb teqb) l tpm_default)) = length l /\
  forall n c v, nth_error l n = Some (c, v) ->
    exists b, nth_error (fst (insert_all (tpm_insert veqb teqb) l tpm_default)) n = Some b /\
      (b = true <-> ~ In (c, v) (firstn n l)).
Proof. exact @tpm_insert_history. Qed.
Print Assumptions c43_insert_new.

(** The hypotheses are met by [nat], and the map is not trivial. *)
Example c43_hyp : forall x y, Nat.eqb x y = true <-> x = y.
Proof. exact Nat.eqb_eq. Qed.
Definition ex_hist : list (ctp nat * nat) :=
  [(CT_AnyS (TA_AnyP TAA_SameS), 1); (CT_GivenS 5 (TG_GivenP 6 (TGG_Given 5)), 2);
   (CT_GivenS 5 (TG_AnyP TGA_Any), 3); (CT_GivenS 4 (TG_AnyP TGA_Any), 4);
   (CT_AnyS (TA_GivenP 6 TAG_Any), 1); (CT_AnyS (TA_AnyP TAA_SameS), 1)].
Example c43_ex_get :
  tpm_get Nat.eqb (snd (insert_all (tpm_insert Nat.eqb Nat.eqb) ex_hist tpm_default)) (Triple 5 6 5)
  = [1; 1; 3; 2].
Proof. vm_compute. reflexivity. Qed.
Example c43_ex_new :
  fst (insert_all (tpm_insert Nat.eqb Nat.eqb) ex_hist tpm_default)
  = [true; true; true; true; true; false].
Proof. vm_compute. reflexivity. Qed.

(** C43 for the public inner map [GivenSubjectMap]. *)
Theorem c43_gs_get_answers : forall V T (veqb : V -> V -> bool) (teqb : T -> T -> bool),
  (forall x y, veqb x y = true <-> x = y) -> (forall x y, teqb x y = true <-> x = y) ->
  forall (l : list (t_gs T * V)) (t : triple T),
  answers (mgs_get teqb (snd (insert_all (mgs_insert veqb teqb) l mgs_default)) t)
    (fun c v => In (c, v) l /\ tgs_m c (t_p t) (t_o t)).
Proof. exact @mgs_get_history. Qed.
Print Assumptions c43_gs_get_answers.

(** C44, what [GivenSubjectMap::union_with] really keeps: every pair of the
    second map, and those of the first map whose key the second does not use. *)
Theorem c44_gs_union_exact : forall V T (veqb : V -> V -> bool) (teqb : T -> T -> bool),
  (forall x y, veqb x y = true <-> x = y) -> (forall x y, teqb x y = true <-> x = y) ->
  forall (l1 l2 : list (t_gs T * V)) (t : triple T),
  answers (mgs_get teqb (mgs_union veqb teqb
      (snd (insert_all (mgs_insert veqb teqb) l1 mgs_default))
      (snd (insert_all (mgs_insert veqb teqb) l2 mgs_default))) t)
    (fun c v => (In (c, v) l2 \/
                 (In (c, v) l1 /\ ~ exists c' v', In (c', v') l2 /\ same_key_gs c' c)) /\
                tgs_m c (t_p t) (t_o t)).
Proof. exact @mgs_union_history. Qed.
Print Assumptions c44_gs_union_exact.

(** C44, restricted to maps that share no key: the union loses nothing. *)
Theorem c44_gs_union_partial : forall V T (veqb : V -> V -> bool) (teqb : T -> T -> bool),
  (forall x y, veqb x y = true <-> x = y) -> (forall x y, teqb x y = true <-> x = y) ->
  forall (l1 l2 : list (t_gs T * V)) (t : triple T),
  (forall c v c' v', In (c, v) l1 -> In (c', v') l2 -> ~ same_key_gs c' c) ->
  answers (mgs_get teqb (mgs_union veqb teqb
      (snd (insert_all (mgs_insert veqb teqb) l1 mgs_default))
      (snd (insert_all (mgs_insert veqb teqb) l2 mgs_default))) t)
    (fun c v => (In (c, v) l1 \/ In (c, v) l2) /\ tgs_m c (t_p t) (t_o t)).
Proof. exact @mgs_union_disjoint. Qed.
Print Assumptions c44_gs_union_partial.

(** C43 for the public inner map [AnySubjectMap]. *)
Theorem c43_as_get_answers : forall V T (veqb : V -> V -> bool) (teqb : T -> T -> bool),
  (forall x y, veqb x y = true <-> x = y) -> (forall x y, teqb x y = true <-> x = y) ->
  forall (l : list (t_as T * V)) (t : triple T),
  answers (mas_get teqb (snd (insert_all (mas_insert veqb teqb) l mas_default)) t)
    (fun c v => In (c, v) l /\ tas_m c (t_s t) (t_p t) (t_o t)).
Proof. exact @mas_get_history. Qed.
Print Assumptions c43_as_get_answers.

(** C44, what [AnySubjectMap::union_with] really keeps: every pair of the
    second map, and those of the first map whose key the second does not use. *)
Theorem c44_as_union_exact : forall V T (veqb : V -> V -> bool) (teqb : T -> T -> bool),
  (forall x y, veqb x y = true <-> x = y) -> (forall x y, teqb x y = true <-> x = y) ->
  forall (l1 l2 : list (t_as T * V)) (t : triple T),
  answers (mas_get teqb (mas_union veqb teqb
      (snd (insert_all (mas_insert veqb teqb) l1 mas_default))
      (snd (insert_all (mas_insert veqb teqb) l2 mas_default))) t)
    (fun c v => (In (c, v) l2 \/
                 (In (c, v) l1 /\ ~ exists c' v', In (c', v') l2 /\ same_key_as c' c)) /\
                tas_m c (t_s t) (t_p t) (t_o t)).
Proof. exact @mas_union_history. Qed.
Print Assumptions c44_as_union_exact.

(** C44, restricted to maps that share no key: the union loses nothing. *)
Theorem c44_as_union_partial : forall V T (veqb : V -> V -> bool) (teqb : T -> T -> bool),
  (forall x y, veqb x y = true <-> x = y) -> (forall x y, teqb x y = true <-> x = y) ->
  forall (l1 l2 : list (t_as T * V)) (t : triple T),
  (forall c v c' v', In (c, v) l1 -> In (c', v') l2 -> ~ same_key_as c' c) ->
  answers (mas_get teqb (mas_union veqb teqb
      (snd (insert_all (mas_insert veqb teqb) l1 mas_default))
      (snd (insert_all (mas_insert veqb teqb) l2 mas_default))) t)
    (fun c v => (In (c, v) l1 \/ In (c, v) l2) /\ tas_m c (t_s t) (t_p t) (t_o t)).
Proof. exact @mas_union_disjoint. Qed.
Print Assumptions c44_as_union_partial.

(** C43 for the public inner map [GivenSubjectAnyPredicateMap]. *)
Theorem c43_ga_get_answers : forall V T (veqb : V -> V -> bool) (teqb : T -> T -> bool),
  (forall x y, veqb x y = true <-> x = y) -> (forall x y, teqb x y = true <-> x = y) ->
  forall (l : list (t_ga T * V)) (t : triple T),
  answers (mga_get teqb (snd (insert_all (mga_insert veqb teqb) l mga_default)) t)
    (fun c v => In (c, v) l /\ tga_m c (t_p t) (t_o t)).
Proof. exact @mga_get_history. Qed.
Print Assumptions c43_ga_get_answers.

(** C44, what [GivenSubjectAnyPredicateMap::union_with] really keeps: every pair of the
    second map, and those of the first map whose key the second does not use. *)
Theorem c44_ga_union_exact : forall V T (veqb : V -> V -> bool) (teqb : T -> T -> bool),
  (forall x y, veqb x y = true <-> x = y) -> (forall x y, teqb x y = true <-> x = y) ->
  forall (l1 l2 : list (t_ga T * V)) (t : triple T),
  answers (mga_get teqb (mga_union veqb teqb
      (snd (insert_all (mga_insert veqb teqb) l1 mga_default))
      (snd (insert_all (mga_insert veqb teqb) l2 mga_default))) t)
    (fun c v => (In (c, v) l2 \/
                 (In (c, v) l1 /\ ~ exists c' v', In (c', v') l2 /\ same_key_ga c' c)) /\
                tga_m c (t_p t) (t_o t)).
Proof. exact @mga_union_history. Qed.
Print Assumptions c44_ga_union_exact.

(** C44, restricted to maps that share no key: the union loses nothing. *)
Theorem c44_ga_union_partial : forall V T (veqb : V -> V -> bool) (teqb : T -> T -> bool),
  (forall x y, veqb x y = true <-> x = y) -> (forall x y, teqb x y = true <-> x = y) ->
  forall (l1 l2 : list (t_ga T * V)) (t : triple T),
  (forall c v c' v', In (c, v) l1 -> In (c', v') l2 -> ~ same_key_ga c' c) ->
  answers (mga_get teqb (mga_union veqb teqb
      (snd (insert_all (mga_insert veqb teqb) l1 mga_default))
      (snd (insert_all (mga_insert veqb teqb) l2 mga_default))) t)
    (fun c v => (In (c, v) l1 \/ In (c, v) l2) /\ tga_m c (t_p t) (t_o t)).
Proof. exact @mga_union_disjoint. Qed.
Print Assumptions c44_ga_union_partial.

(** C43 for the public inner map [GivenSubjectGivenPredicateMap]. *)
Theorem c43_gg_get_answers : forall V T (veqb : V -> V -> bool) (teqb : T -> T -> bool),
  (forall x y, veqb x y = true <-> x = y) -> (forall x y, teqb x y = true <-> x = y) ->
  forall (l : list (t_gg T * V)) (t : triple T),
  answers (mgg_get teqb (snd (insert_all (mgg_insert veqb teqb) l mgg_default)) t)
    (fun c v => In (c, v) l /\ tgg_m c (t_o t)).
Proof. exact @mgg_get_history. Qed.
Print Assumptions c43_gg_get_answers.

(** C44, what [GivenSubjectGivenPredicateMap::union_with] really keeps: every pair of the
    second map, and those of the first map whose key the second does not use. *)
Theorem c44_gg_union_exact : forall V T (veqb : V -> V -> bool) (teqb : T -> T -> bool),
  (forall x y, veqb x y = true <-> x = y) -> (forall x y, teqb x y = true <-> x = y) ->
  forall (l1 l2 : list (t_gg T * V)) (t : triple T),
  answers (mgg_get teqb (mgg_union veqb teqb
      (snd (insert_all (mgg_insert veqb teqb) l1 mgg_default))
      (snd (insert_all (mgg_insert veqb teqb) l2 mgg_default))) t)
    (fun c v => (In (c, v) l2 \/
                 (In (c, v) l1 /\ ~ exists c' v', In (c', v') l2 /\ same_key_gg c' c)) /\
                tgg_m c (t_o t)).
Proof. exact @mgg_union_history. Qed.
Print Assumptions c44_gg_union_exact.

(** C44, restricted to maps that share no key: the union loses nothing. *)
Theorem c44_gg_union_partial : forall V T (veqb : V -> V -> bool) (teqb : T -> T -> bool),
  (forall x y, veqb x y = true <-> x = y) -> (forall x y, teqb x y = true <-> x = y) ->
  forall (l1 l2 : list (t_gg T * V)) (t : triple T),
  (forall c v c' v', In (c, v) l1 -> In (c', v') l2 -> ~ same_key_gg c' c) ->
  answers (mgg_get teqb (mgg_union veqb teqb
      (snd (insert_all (mgg_insert veqb teqb) l1 mgg_default))
      (snd (insert_all (mgg_insert veqb teqb) l2 mgg_default))) t)
    (fun c v => (In (c, v) l1 \/ In (c, v) l2) /\ tgg_m c (t_o t)).
Proof. exact @mgg_union_disjoint. Qed.
Print Assumptions c44_gg_union_partial.

(** C43 for the public inner map [AnySubjectAnyPredicateMap]. *)
Theorem c43_aa_get_answers : forall V T (veqb : V -> V -> bool) (teqb : T -> T -> bool),
  (forall x y, veqb x y = true <-> x = y) -> (forall x y, teqb x y = true <-> x = y) ->
  forall (l : list (t_aa T * V)) (t : triple T),
  answers (maa_get teqb (snd (insert_all (maa_insert veqb teqb) l maa_default)) t)
    (fun c v => In (c, v) l /\ taa_m c (t_s t) (t_p t) (t_o t)).
Proof. exact @maa_get_history. Qed.
Print Assumptions c43_aa_get_answers.

(** C44, what [AnySubjectAnyPredicateMap::union_with] really keeps: every pair of the
    second map, and those of the first map whose key the second does not use. *)
Theorem c44_aa_union_exact : forall V T (veqb : V -> V -> bool) (teqb : T -> T -> bool),
  (forall x y, veqb x y = true <-> x = y) -> (forall x y, teqb x y = true <-> x = y) ->
  forall (l1 l2 : list (t_aa T * V)) (t : triple T),
  answers (maa_get teqb (maa_union veqb teqb
      (snd (insert_all (maa_insert veqb teqb) l1 maa_default))
      (snd (insert_all (maa_insert veqb teqb) l2 maa_default))) t)
    (fun c v => (In (c, v) l2 \/
                 (In (c, v) l1 /\ ~ exists c' v', In (c', v') l2 /\ same_key_aa c' c)) /\
                taa_m c (t_s t) (t_p t) (t_o t)).
Proof. exact @maa_union_history. Qed.
Print Assumptions c44_aa_union_exact.

(** C44, restricted to maps that share no key: the union loses nothing. *)
Theorem c44_aa_union_partial : forall V T (veqb : V -> V -> bool) (teqb : T -> T -> bool),
  (forall x y, veqb x y = true <-> x = y) -> (forall x y, teqb x y = true <-> x = y) ->
  forall (l1 l2 : list (t_aa T * V)) (t : triple T),
  (forall c v c' v', In (c, v) l1 -> In (c', v') l2 -> ~ same_key_aa c' c) ->
  answers (maa_get teqb (maa_union veqb teqb
      (snd (insert_all (maa_insert veqb teqb) l1 maa_default))
      (snd (insert_all (maa_insert veqb teqb) l2 maa_default))) t)
    (fun c v => (In (c, v) l1 \/ In (c, v) l2) /\ taa_m c (t_s t) (t_p t) (t_o t)).
Proof. exact @maa_union_disjoint. Qed.
Print Assumptions c44_aa_union_partial.

(** C43 for the public inner map [AnySubjectGivenPredicateMap]. *)
Theorem c43_ag_get_answers : forall V T (veqb : V -> V -> bool) (teqb : T -> T -> bool),
  (forall x y, veqb x y = true <-> x = y) -> (forall x y, teqb x y = true <-> x = y) ->
  forall (l : list (t_ag T * V)) (t : triple T),
  answers (mag_get teqb (snd (insert_all (mag_insert veqb teqb) l mag_default)) t)
    (fun c v => In (c, v) l /\ tag_m c (t_s t) (t_o t)).
Proof. exact @mag_get_history. Qed.
Print Assumptions c43_ag_get_answers.

(** C44, what [AnySubjectGivenPredicateMap::union_with] really keeps: every pair of the
    second map, and those of the first map whose key the second does not use. *)
Theorem c44_ag_union_exact : forall V T (veqb : V -> V -> bool) (teqb : T -> T -> bool),
  (forall x y, veqb x y = true <-> x = y) -> (forall x y, teqb x y = true <-> x = y) ->
  forall (l1 l2 : list (t_ag T * V)) (t : triple T),
  answers (mag_get teqb (mag_union veqb teqb
      (snd (insert_all (mag_insert veqb teqb) l1 mag_default))
      (snd (insert_all (mag_insert veqb teqb) l2 mag_default))) t)
    (fun c v => (In (c, v) l2 \/
                 (In (c, v) l1 /\ ~ exists c' v', In (c', v') l2 /\ same_key_ag c' c)) /\
                tag_m c (t_s t) (t_o t)).
Proof. exact @mag_union_history. Qed.
Print Assumptions c44_ag_union_exact.

(** C44, restricted to maps that share no key: the union loses nothing. *)
Theorem c44_ag_union_partial : forall V T (veqb : V -> V -> bool) (teqb : T -> T -> bool),
  (forall x y, veqb x y = true <-> x = y) -> (forall x y, teqb x y = true <-> x = y) ->
  forall (l1 l2 : list (t_ag T * V)) (t : triple T),
  (forall c v c' v', In (c, v) l1 -> In (c', v') l2 -> ~ same_key_ag c' c) ->
  answers (mag_get teqb (mag_union veqb teqb
      (snd (insert_all (mag_insert veqb teqb) l1 mag_default))
      (snd (insert_all (mag_insert veqb teqb) l2 mag_default))) t)
    (fun c v => (In (c, v) l1 \/ In (c, v) l2) /\ tag_m c (t_s t) (t_o t)).
Proof. exact @mag_union_disjoint. Qed.
Print Assumptions c44_ag_union_partial.

(** C44 is false of [GivenSubjectMap::union_with]: a value found in the first map is
    not found in the union. *)
Theorem c44_gs_union_refuted : exists (l1 l2 : list (t_gs nat * nat)) (t : triple nat) (v : nat),
  let m1 := snd (insert_all (mgs_insert Nat.eqb Nat.eqb) l1 mgs_default) in
  let m2 := snd (insert_all (mgs_insert Nat.eqb Nat.eqb) l2 mgs_default) in
  In v (mgs_get Nat.eqb m1 t) /\ ~ In v (mgs_get Nat.eqb (mgs_union Nat.eqb Nat.eqb m1 m2) t).
Proof.
  exists [(TG_GivenP 6 TGG_Any, 1)], [(TG_GivenP 6 (TGG_Given 7), 2)], (Triple 5 6 7), 1. vm_compute.
  split; [left; reflexivity|]. intros [H|[]]. discriminate.
Qed.
Print Assumptions c44_gs_union_refuted.

Example c44_gs_ex : forall c v c' v', In (c, v) [(TG_GivenP 6 TGG_Any, 1)] ->
  In (c', v') [(TG_GivenP 8 (TGG_Given 7), 2); (TG_AnyP TGA_Any, 3)] -> ~ same_key_gs c' c.
Proof.
  cbn. intros c v c' v' [E|[]] F. injection E as <- <-.
  destruct F as [E|[E|[]]]; injection E as <- <-; cbn; try discriminate; tauto.
Qed.

(** C44 is false of [AnySubjectMap::union_with]: a value found in the first map is
    not found in the union. *)
Theorem c44_as_union_refuted : exists (l1 l2 : list (t_as nat * nat)) (t : triple nat) (v : nat),
  let m1 := snd (insert_all (mas_insert Nat.eqb Nat.eqb) l1 mas_default) in
  let m2 := snd (insert_all (mas_insert Nat.eqb Nat.eqb) l2 mas_default) in
  In v (mas_get Nat.eqb m1 t) /\ ~ In v (mas_get Nat.eqb (mas_union Nat.eqb Nat.eqb m1 m2) t).
Proof.
  exists [(TA_GivenP 6 TAG_Any, 1)], [(TA_GivenP 6 (TAG_Given 7), 2)], (Triple 5 6 7), 1. vm_compute.
  split; [left; reflexivity|]. intros [H|[]]. discriminate.
Qed.
Print Assumptions c44_as_union_refuted.

Example c44_as_ex : forall c v c' v', In (c, v) [(TA_GivenP 6 TAG_Any, 1)] ->
  In (c', v') [(TA_GivenP 8 (TAG_Given 7), 2); (TA_AnyP TAA_Any, 3)] -> ~ same_key_as c' c.
Proof.
  cbn. intros c v c' v' [E|[]] F. injection E as <- <-.
  destruct F as [E|[E|[]]]; injection E as <- <-; cbn; try discriminate; tauto.
Qed.

(** C44 is false of [GivenSubjectAnyPredicateMap::union_with]: a value found in the first map is
    not found in the union. *)
Theorem c44_ga_union_refuted : exists (l1 l2 : list (t_ga nat * nat)) (t : triple nat) (v : nat),
  let m1 := snd (insert_all (mga_insert Nat.eqb Nat.eqb) l1 mga_default) in
  let m2 := snd (insert_all (mga_insert Nat.eqb Nat.eqb) l2 mga_default) in
  In v (mga_get Nat.eqb m1 t) /\ ~ In v (mga_get Nat.eqb (mga_union Nat.eqb Nat.eqb m1 m2) t).
Proof.
  exists [(TGA_Given 7, 1)], [(TGA_Given 7, 2)], (Triple 5 6 7), 1. vm_compute.
  split; [left; reflexivity|]. intros [H|[]]. discriminate.
Qed.
Print Assumptions c44_ga_union_refuted.

Example c44_ga_ex : forall c v c' v', In (c, v) [(TGA_Given 7, 1)] ->
  In (c', v') [(TGA_Given 8, 2); (TGA_Any, 3)] -> ~ same_key_ga c' c.
Proof.
  cbn. intros c v c' v' [E|[]] F. injection E as <- <-.
  destruct F as [E|[E|[]]]; injection E as <- <-; cbn; try discriminate; tauto.
Qed.

(** C44 is false of [GivenSubjectGivenPredicateMap::union_with]: a value found in the first map is
    not found in the union. *)
Theorem c44_gg_union_refuted : exists (l1 l2 : list (t_gg nat * nat)) (t : triple nat) (v : nat),
  let m1 := snd (insert_all (mgg_insert Nat.eqb Nat.eqb) l1 mgg_default) in
  let m2 := snd (insert_all (mgg_insert Nat.eqb Nat.eqb) l2 mgg_default) in
  In v (mgg_get Nat.eqb m1 t) /\ ~ In v (mgg_get Nat.eqb (mgg_union Nat.eqb Nat.eqb m1 m2) t).
Proof.
  exists [(TGG_Given 7, 1)], [(TGG_Given 7, 2)], (Triple 5 6 7), 1. vm_compute.
  split; [left; reflexivity|]. intros [H|[]]. discriminate.
Qed.
Print Assumptions c44_gg_union_refuted.

Example c44_gg_ex : forall c v c' v', In (c, v) [(TGG_Given 7, 1)] ->
  In (c', v') [(TGG_Given 8, 2); (TGG_Any, 3)] -> ~ same_key_gg c' c.
Proof.
  cbn. intros c v c' v' [E|[]] F. injection E as <- <-.
  destruct F as [E|[E|[]]]; injection E as <- <-; cbn; try discriminate; tauto.
Qed.

(** C44 is false of [AnySubjectAnyPredicateMap::union_with]: a value found in the first map is
    not found in the union. *)
Theorem c44_aa_union_refuted : exists (l1 l2 : list (t_aa nat * nat)) (t : triple nat) (v : nat),
  let m1 := snd (insert_all (maa_insert Nat.eqb Nat.eqb) l1 maa_default) in
  let m2 := snd (insert_all (maa_insert Nat.eqb Nat.eqb) l2 maa_default) in
  In v (maa_get Nat.eqb m1 t) /\ ~ In v (maa_get Nat.eqb (maa_union Nat.eqb Nat.eqb m1 m2) t).
Proof.
  exists [(TAA_Given 7, 1)], [(TAA_Given 7, 2)], (Triple 5 6 7), 1. vm_compute.
  split; [left; reflexivity|]. intros [H|[]]. discriminate.
Qed.
Print Assumptions c44_aa_union_refuted.

Example c44_aa_ex : forall c v c' v', In (c, v) [(TAA_Given 7, 1)] ->
  In (c', v') [(TAA_Given 8, 2); (TAA_Any, 3)] -> ~ same_key_aa c' c.
Proof.
  cbn. intros c v c' v' [E|[]] F. injection E as <- <-.
  destruct F as [E|[E|[]]]; injection E as <- <-; cbn; try discriminate; tauto.
Qed.

(** C44 is false of [AnySubjectGivenPredicateMap::union_with]: a value found in the first map is
    not found in the union. *)
Theorem c44_ag_union_refuted : exists (l1 l2 : list (t_ag nat * nat)) (t : triple nat) (v : nat),
  let m1 := snd (insert_all (mag_insert Nat.eqb Nat.eqb) l1 mag_default) in
  let m2 := snd (insert_all (mag_insert Nat.eqb Nat.eqb) l2 mag_default) in
  In v (mag_get Nat.eqb m1 t) /\ ~ In v (mag_get Nat.eqb (mag_union Nat.eqb Nat.eqb m1 m2) t).
Proof.
  exists [(TAG_Given 7, 1)], [(TAG_Given 7, 2)], (Triple 5 6 7), 1. vm_compute.
  split; [left; reflexivity|]. intros [H|[]]. discriminate.
Qed.
Print Assumptions c44_ag_union_refuted.

Example c44_ag_ex : forall c v c' v', In (c, v) [(TAG_Given 7, 1)] ->
  In (c', v') [(TAG_Given 8, 2); (TAG_Any, 3)] -> ~ same_key_ag c' c.
Proof.
  cbn. intros c v c' v' [E|[]] F. injection E as <- <-.
  destruct F as [E|[E|[]]]; injection E as <- <-; cbn; try discriminate; tauto.
Qed.

