(** Consequences for histories of the containers. *)
From Coq Require Import List Bool Arith.
Import ListNotations.
From Verif Require Import Base TripleModel TriplePatternModel QuadPatternModel PatternSpec SlabModel
  SetSpec ContainerSpec IndexedSpec Machine BResourceModel BTreeDatasetModel BTreeGraphModel
  IResourceModel IndexedDatasetModel IndexedGraphModel BTreeDatasetProofs BTreeGraphProofs
  IndexedRunProofs IndexedGraphRunProofs MapSpec BMapProofs IMapProofs.

Section Renamed.
  Context {A B : Type} (ca : A -> A -> comparison) (cb : B -> B -> comparison) (f : A -> B).
  Context (C : forall x y, cb (f x) (f y) = ca x y) (keep : bool).
  Local Notation qm := (quad_map f).
  Local Notation tm := (triple_map f).

  Lemma bd_renamed ops :
    match run (bd_step ca keep) bd_new ops with
    | None => run (bd_step cb keep) bd_new (map (op_map qm) ops) = None
    | Some (xs, d) =>
        exists d', run (bd_step cb keep) bd_new (map (op_map qm) ops) = Some (map (out_map qm) xs, d') /\
          bd_resources_iter d' = option_map (map f) (bd_resources_iter d) /\
          forall r, bd_contains_resource cb d' (f r) = bd_contains_resource ca d r
    end.
  Proof.
    pose proof (bd_run_map ca cb f C keep ops) as E.
    destruct (run (bd_step ca keep) bd_new ops) as [[xs d]|]; [|exact E].
    exists (bd_map f d); split; [exact E|]; split; [apply bd_resources_iter_map|].
    intros r; now apply bd_contains_resource_map.
  Qed.
  Lemma bg_renamed ops :
    match run (bg_step ca keep) bg_new ops with
    | None => run (bg_step cb keep) bg_new (map (op_map tm) ops) = None
    | Some (xs, g) =>
        exists g', run (bg_step cb keep) bg_new (map (op_map tm) ops) = Some (map (out_map tm) xs, g') /\
          bg_resources_iter g' = option_map (map f) (bg_resources_iter g) /\
          forall r, bg_contains_resource cb g' (f r) = bg_contains_resource ca g r
    end.
  Proof.
    pose proof (bg_run_map ca cb f C keep ops) as E.
    destruct (run (bg_step ca keep) bg_new ops) as [[xs d]|]; [|exact E].
    exists (bg_map f d); split; [exact E|]; split; [apply bg_resources_iter_map|].
    intros r; now apply bg_contains_resource_map.
  Qed.

  Lemma id_reached_determined {T} (c : T -> T -> comparison) ops0 ops xs ys d e :
    id_reached c keep ops0 ops xs d -> id_reached c keep ops0 ops ys e -> ys = xs /\ e = d.
  Proof.
    intros (xs0 & b & d0 & E0 & E1 & E2) (ys0 & b' & d0' & F0 & F1 & F2).
    rewrite E0 in F0; injection F0 as <- <-; rewrite E1 in F1; injection F1 as <-.
    rewrite E2 in F2; injection F2 as <- <-; auto.
  Qed.
  Lemma ig_reached_determined {T} (c : T -> T -> comparison) ops0 ops d e :
    ig_reached c keep ops0 ops d -> ig_reached c keep ops0 ops e -> e = d.
  Proof.
    intros (xs0 & b & d0 & xs & E0 & E1 & E2) (ys0 & b' & d0' & ys & F0 & F1 & F2).
    rewrite E0 in F0; injection F0 as <- <-; rewrite E1 in F1; injection F1 as <-.
    rewrite E2 in F2; injection F2 as <- <-; auto.
  Qed.

  Lemma id_map_same d : id_same ca cb f d (id_map f d).
  Proof.
    unfold id_same; split; [apply id_values_map|]; split; [apply id_resource_count_map|].
    split; [intros; now apply id_contains_resource_map|].
    do 4 (split; [apply id_values_map|]).
    split; intros; [now apply id_pattern_matching_map|now apply id_multi_pattern_matching_map].
  Qed.
  Lemma id_renamed ops0 ops ys d' :
    id_reached cb keep (map (op_map qm) ops0) (map (iop_map f) ops) ys d' <->
    exists xs d, id_reached ca keep ops0 ops xs d /\ ys = map (iout_map f) xs /\ d' = id_map f d.
  Proof.
    split.
    - now apply id_reached_unmap.
    - intros (xs & d & H & -> & ->); exact (id_reached_map ca cb f C keep _ _ _ _ H).
  Qed.
  Lemma id_renamed_same ops0 ops :
    (forall xs d, id_reached ca keep ops0 ops xs d ->
       exists d', id_reached cb keep (map (op_map qm) ops0) (map (iop_map f) ops)
                    (map (iout_map f) xs) d' /\ id_same ca cb f d d') /\
    (forall ys d', id_reached cb keep (map (op_map qm) ops0) (map (iop_map f) ops) ys d' ->
       exists xs d, id_reached ca keep ops0 ops xs d).
  Proof.
    split.
    - intros xs d H; exists (id_map f d); split; [|apply id_map_same].
      exact (id_reached_map ca cb f C keep _ _ _ _ H).
    - intros ys d' H; apply id_renamed in H; destruct H as (xs & d & H & _); eauto.
  Qed.

  Lemma ig_map_same g : ig_same ca cb f g (ig_map f g).
  Proof.
    unfold ig_same; split; [apply ig_iter_map|]; split; [apply ig_into_iter_map|].
    split; [reflexivity|]; split; [intros; now apply ig_contains_map|].
    split; [apply ig_values_map|]; split; [apply ig_resource_count_map|].
    split; [intros; now apply ig_contains_resource_map|].
    do 3 (split; [apply ig_values_map|]).
    intros; now apply ig_pattern_matching_map.
  Qed.
  Lemma ig_reached_unmap ops0 ops e :
    ig_reached cb keep (map (op_map tm) ops0) (map (op_map tm) ops) e ->
    exists g, ig_reached ca keep ops0 ops g /\ e = ig_map f g.
  Proof.
    intros (xs0 & b & g0 & ys & H0 & H1 & H2).
    rewrite (bg_run_map ca cb f C) in H0.
    destruct (run (bg_step ca keep) bg_new ops0) as [[ys0 c]|] eqn:E0; [|discriminate].
    injection H0 as <- <-; rewrite ig_from_non_indexed_map in H1.
    destruct (ig_from_non_indexed c) as [c0|] eqn:E1; [|discriminate]; injection H1 as <-.
    rewrite (run_map _ _ (ig_map f) _ _ (ig_step_map ca cb f C keep)) in H2.
    destruct (run (ig_step ca keep) c0 ops) as [[xs d]|] eqn:E2; [|discriminate]; injection H2 as <- <-.
    exists d; split; [exists ys0, c, c0, xs; auto|auto].
  Qed.
  Lemma ig_renamed_same ops0 ops :
    (forall g, ig_reached ca keep ops0 ops g ->
       exists g', ig_reached cb keep (map (op_map tm) ops0) (map (op_map tm) ops) g' /\ ig_same ca cb f g g') /\
    (forall g', ig_reached cb keep (map (op_map tm) ops0) (map (op_map tm) ops) g' ->
       exists g, ig_reached ca keep ops0 ops g).
  Proof.
    split.
    - intros g H; exists (ig_map f g); split; [|apply ig_map_same].
      exact (ig_reached_map ca cb f C keep _ _ _ H).
    - intros g' H; apply ig_reached_unmap in H; destruct H as (g & H & _); eauto.
  Qed.

  (** Comparison of two containers. *)
  Lemma bd_cmp_renamed ops1 ops2 xs1 xs2 ys1 ys2 d1 d2 e1 e2 :
    run (bd_step ca keep) bd_new ops1 = Some (xs1, d1) ->
    run (bd_step ca keep) bd_new ops2 = Some (xs2, d2) ->
    run (bd_step cb keep) bd_new (map (op_map qm) ops1) = Some (ys1, e1) ->
    run (bd_step cb keep) bd_new (map (op_map qm) ops2) = Some (ys2, e2) ->
    bd_cmp cb e1 e2 = bd_cmp ca d1 d2.
  Proof.
    intros H1 H2 K1 K2; rewrite (bd_run_map ca cb f C) in K1, K2.
    rewrite H1 in K1; rewrite H2 in K2; injection K1 as <- <-; injection K2 as <- <-.
    now apply bd_cmp_map.
  Qed.
  Lemma bg_cmp_renamed ops1 ops2 xs1 xs2 ys1 ys2 d1 d2 e1 e2 :
    run (bg_step ca keep) bg_new ops1 = Some (xs1, d1) ->
    run (bg_step ca keep) bg_new ops2 = Some (xs2, d2) ->
    run (bg_step cb keep) bg_new (map (op_map tm) ops1) = Some (ys1, e1) ->
    run (bg_step cb keep) bg_new (map (op_map tm) ops2) = Some (ys2, e2) ->
    bg_cmp cb e1 e2 = bg_cmp ca d1 d2.
  Proof.
    intros H1 H2 K1 K2; rewrite (bg_run_map ca cb f C) in K1, K2.
    rewrite H1 in K1; rewrite H2 in K2; injection K1 as <- <-; injection K2 as <- <-.
    now apply bg_cmp_map.
  Qed.
  Lemma id_cmp_renamed ops01 ops1 ops02 ops2 xs1 xs2 ys1 ys2 d1 d2 e1 e2 :
    id_reached ca keep ops01 ops1 xs1 d1 -> id_reached ca keep ops02 ops2 xs2 d2 ->
    id_reached cb keep (map (op_map qm) ops01) (map (iop_map f) ops1) ys1 e1 ->
    id_reached cb keep (map (op_map qm) ops02) (map (iop_map f) ops2) ys2 e2 ->
    id_cmp cb e1 e2 = id_cmp ca d1 d2.
  Proof.
    intros H1 H2 K1 K2; apply id_renamed in K1, K2.
    destruct K1 as (? & ? & K1 & _ & ->), K2 as (? & ? & K2 & _ & ->).
    destruct (id_reached_determined _ _ _ _ _ _ _ H1 K1) as [_ ->].
    destruct (id_reached_determined _ _ _ _ _ _ _ H2 K2) as [_ ->].
    now apply id_cmp_map.
  Qed.
  Lemma ig_cmp_renamed ops01 ops1 ops02 ops2 d1 d2 e1 e2 :
    ig_reached ca keep ops01 ops1 d1 -> ig_reached ca keep ops02 ops2 d2 ->
    ig_reached cb keep (map (op_map tm) ops01) (map (op_map tm) ops1) e1 ->
    ig_reached cb keep (map (op_map tm) ops02) (map (op_map tm) ops2) e2 ->
    ig_cmp cb e1 e2 = ig_cmp ca d1 d2.
  Proof.
    intros H1 H2 K1 K2; apply ig_reached_unmap in K1, K2.
    destruct K1 as (? & K1 & ->), K2 as (? & K2 & ->).
    rewrite (ig_reached_determined _ _ _ _ _ H1 K1), (ig_reached_determined _ _ _ _ _ H2 K2).
    now apply ig_cmp_map.
  Qed.
End Renamed.

(** Resources compared through a key. *)
Section Key.
  Context {R K : Type} (key : R -> K) (ck : K -> K -> comparison) (L : ord_laws ck) (keep : bool).
  Local Notation cmp := (fun x y => ck (key x) (key y)).
  Local Notation qk := (quad_map key).
  Local Notation tk := (triple_map key).
  Let C : forall x y, ck (key x) (key y) = cmp x y := fun x y => eq_refl.

  Lemma bd_keys ops :
    exists xs d, run (bd_step cmp keep) bd_new ops = Some (xs, d) /\
      map (out_map qk) xs = spec_outs (quad_cmp ck) (map (op_map qk) ops).
  Proof.
    destruct (bd_run_ok L keep (map (op_map qk) ops)) as [d E].
    rewrite (bd_run_map cmp ck key C) in E.
    destruct (run (bd_step cmp keep) bd_new ops) as [[xs d']|]; [|discriminate].
    injection E as E _; exists xs, d'; auto.
  Qed.
  Lemma bg_keys ops :
    exists xs g, run (bg_step cmp keep) bg_new ops = Some (xs, g) /\
      map (out_map tk) xs = spec_outs (triple_cmp ck) (map (op_map tk) ops).
  Proof.
    destruct (bg_run_ok L keep (map (op_map tk) ops)) as [g E].
    rewrite (bg_run_map cmp ck key C) in E.
    destruct (run (bg_step cmp keep) bg_new ops) as [[xs g']|]; [|discriminate].
    injection E as E _; exists xs, g'; auto.
  Qed.
  Lemma id_keys ops0 ops :
    exists xs d, id_reached cmp keep ops0 ops xs d /\
      allowed_run ck (spec_set (quad_cmp ck) (map (op_map qk) ops0)) (map (iop_map key) ops)
        (map (iout_map key) xs).
  Proof.
    destruct (id_total L keep (map (op_map qk) ops0) (map (iop_map key) ops)) as (ys & d' & H & Ha).
    apply (id_renamed cmp ck key C) in H; destruct H as (xs & d & H & -> & ->); eauto.
  Qed.
  Lemma id_keys_contents ops0 ops xs d :
    id_reached cmp keep ops0 ops xs d ->
    let s := final_set ck (map (op_map qk) ops0) (map (iop_map key) ops) (map (iout_map key) xs) in
    exists l, id_iter d = Some l /\ increasing (quad_cmp ck) (map qk l) /\
      (forall q, In q (map qk l) <-> In q s) /\ id_len d = length l /\
      (forall q, id_contains cmp d q = Some (mem (quad_cmp cmp) q l)).
  Proof.
    intros H s; apply (id_reached_map cmp ck key C) in H.
    destruct (id_contents L keep _ _ _ _ H) as (l & E1 & _ & Hi & Hl & Hn & _ & Hc).
    rewrite id_iter_map in E1; destruct (id_iter d) as [m|]; [|discriminate]; injection E1 as <-.
    exists m; split; [reflexivity|]; split; [exact Hi|]; split; [exact Hl|].
    split; [rewrite map_length in Hn; exact Hn|].
    intros q; rewrite <- (id_contains_map cmp ck key C), Hc; f_equal; unfold mem.
    clear; induction m as [|x m IH]; [reflexivity|]; cbn [existsb map]; rewrite IH; f_equal.
    unfold same; now rewrite (quad_cmp_map cmp ck key (fun _ _ => eq_refl)).
  Qed.
  Lemma id_keys_pattern ops0 ops xs d spare c :
    id_reached cmp keep ops0 ops xs d ->
    let s := final_set ck (map (op_map qk) ops0) (map (iop_map key) ops) (map (iout_map key) xs) in
    exists l, id_pattern_matching cmp d spare c = Some l /\ NoDup (map qk l) /\
      forall q, In q l -> In (qk q) s /\ cq_matches (cq_map key c) (qk q).
  Proof.
    intros H s; apply (id_reached_map cmp ck key C) in H.
    destruct (id_pattern_sound L keep _ _ _ _ spare (cq_map key c) H) as (l & E & Hn & Hl).
    rewrite (id_pattern_matching_map cmp ck key C) in E.
    destruct (id_pattern_matching cmp d spare c) as [m|]; [|discriminate]; injection E as <-.
    exists m; split; [reflexivity|]; split; [exact Hn|]; intros q Hq; apply Hl, in_map, Hq.
  Qed.
  Lemma ig_keys ops0 ops :
    exists b g0 xs g, run (bg_step cmp keep) bg_new ops0 = Some b /\
      ig_from_non_indexed (snd b) = Some g0 /\ run (ig_step cmp keep) g0 ops = Some (xs, g) /\
      spec_outs (triple_cmp ck) (map (op_map tk) (ops0 ++ ops)) =
      spec_outs (triple_cmp ck) (map (op_map tk) ops0) ++ map (out_map tk) xs.
  Proof.
    destruct (ig_behaves L keep (map (op_map tk) ops0) (map (op_map tk) ops))
      as (b & g0 & ys & g & E0 & E1 & E2 & E).
    rewrite (bg_run_map cmp ck key C) in E0.
    destruct (run (bg_step cmp keep) bg_new ops0) as [[ys0 c]|]; [|discriminate].
    injection E0 as _ <-; rewrite ig_from_non_indexed_map in E1.
    destruct (ig_from_non_indexed c) as [c0|] eqn:F1; [|discriminate]; injection E1 as <-.
    rewrite (run_map _ _ (ig_map key) _ _ (ig_step_map cmp ck key C keep)) in E2.
    destruct (run (ig_step cmp keep) c0 ops) as [[xs d]|] eqn:F2; [|discriminate]; injection E2 as <- <-.
    exists (ys0, c), c0, xs, d; rewrite map_app; auto.
  Qed.
  Lemma ig_keys_pattern ops0 ops g spare c :
    ig_reached cmp keep ops0 ops g ->
    exists l, ig_pattern_matching cmp g spare c = Some l /\ NoDup (map tk l) /\
      forall t, In t l ->
        In (tk t) (spec_set (triple_cmp ck) (map (op_map tk) (ops0 ++ ops))) /\
        ct_matches (ct_map key c) (tk t).
  Proof.
    intros H; apply (ig_reached_map cmp ck key C) in H.
    destruct (ig_pattern_sound L keep _ _ _ spare (ct_map key c) H) as (l & E & Hn & Hl).
    rewrite (ig_pattern_matching_map cmp ck key C) in E.
    destruct (ig_pattern_matching cmp g spare c) as [m|]; [|discriminate]; injection E as <-.
    exists m; split; [reflexivity|]; split; [exact Hn|]; intros t Ht; rewrite map_app.
    apply Hl, in_map, Ht.
  Qed.
End Key.
