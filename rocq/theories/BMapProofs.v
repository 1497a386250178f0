(** The B-tree containers look at resources through their comparison only. *)
From Coq Require Import List Bool Arith.
Import ListNotations.
From Verif Require Import Base TripleModel SlabModel SetSpec Machine BResourceModel BTreeDatasetModel
  BTreeGraphModel MapSpec.
Open Scope panic_scope.

Lemma bind_map {A B C D} (f : A -> B) (g : C -> D) (x : option A) (h : A -> option C) (k : B -> option D) :
  (forall a, x = Some a -> k (f a) = option_map g (h a)) ->
  bind (option_map f x) k = option_map g (bind x h).
Proof. destruct x; cbn; auto. Qed.

Lemma bind_same {A C D} (g : C -> D) (x : option A) (h : A -> option C) (k : A -> option D) :
  (forall a, x = Some a -> k a = option_map g (h a)) -> bind x k = option_map g (bind x h).
Proof. destruct x; cbn; auto. Qed.

Lemma mapM_map {I A B} (f : A -> B) (g : I -> option A) (h : I -> option B) l :
  (forall i, h i = option_map f (g i)) -> mapM h l = option_map (map f) (mapM g l).
Proof.
  intros H; induction l as [|i l IH]; [reflexivity|]; cbn; rewrite H, IH.
  destruct (g i); cbn; [|reflexivity]; destruct (mapM g l); reflexivity.
Qed.

Section Slab.
  Context {A B : Type} (f : A -> B).

  Lemma sget_map s i : sget (slab_map f s) i = option_map f (sget s i).
  Proof. unfold sget, slab_map; cbn; rewrite nth_error_map; destruct (nth_error (ents s) i) as [[]|]; reflexivity. Qed.
  Lemma vacant_map s : vacant_key (slab_map f s) = vacant_key s.
  Proof. unfold vacant_key, slab_map; cbn; destruct (free s); [apply map_length|reflexivity]. Qed.
  Lemma list_set_map {X Y} (g : X -> Y) l : forall i x, list_set (map g l) i (g x) = map g (list_set l i x).
  Proof. induction l as [|y l IH]; intros [|i] x; cbn; congruence. Qed.
  Lemma sinsert_map s x : sinsert (slab_map f s) (f x) = slab_map f (sinsert s x).
  Proof.
    unfold sinsert, slab_map; cbn; destruct (free s); cbn; f_equal.
    - now rewrite map_app.
    - now rewrite <- list_set_map.
  Qed.
  Lemma sset_map s i x : sset (slab_map f s) i (f x) = slab_map f (sset s i x).
  Proof. unfold sset, slab_map; cbn; f_equal; now rewrite <- list_set_map. Qed.
  Lemma sremove_map s i :
    sremove (slab_map f s) i = option_map (fun '(x, t) => (f x, slab_map f t)) (sremove s i).
  Proof.
    unfold sremove; rewrite sget_map; destruct (sget s i); [|reflexivity]; cbn.
    do 2 f_equal; unfold slab_map; cbn; f_equal; now rewrite <- list_set_map.
  Qed.
  Lemma spairs_from_map l : forall n,
    spairs_from n (map (option_map f) l) = map (fun '(i, x) => (i, f x)) (spairs_from n l).
  Proof. induction l as [|[x|] l IH]; intros n; cbn; [reflexivity|now rewrite IH|apply IH]. Qed.
  Lemma spairs_map s : spairs (slab_map f s) = map (fun '(i, x) => (i, f x)) (spairs s).
  Proof. apply spairs_from_map. Qed.
  Lemma slen_map s : slen (slab_map f s) = slen s.
  Proof. unfold slen; now rewrite spairs_map, map_length. Qed.
  Lemma gap_map n : forall s, gap (slab_map f s) n = slab_map f (gap s n).
  Proof.
    induction n as [|n IH]; intros s; [reflexivity|]; cbn; rewrite <- IH; f_equal.
    unfold slab_map; cbn; now rewrite map_app, map_length.
  Qed.
  Lemma scollect_from_map l : forall s,
    scollect_from (slab_map f s) (map (fun '(i, x) => (i, f x)) l) = slab_map f (scollect_from s l).
  Proof.
    induction l as [|[k x] l IH]; intros s; [reflexivity|].
    cbn -[gap]; rewrite <- IH; f_equal.
    replace (length (map (option_map f) (ents s))) with (length (ents s)) by (symmetry; apply map_length).
    rewrite gap_map; unfold slab_map; cbn; now rewrite map_app.
  Qed.
  Lemma scollect_map l : scollect (map (fun '(i, x) => (i, f x)) l) = slab_map f (scollect l).
  Proof. apply (scollect_from_map l slab_new). Qed.
End Slab.

Lemma bt_get_same {K K'} (c : nat -> K -> option comparison) (c' : nat -> K' -> option comparison) k k' l :
  (forall i, c' i k' = c i k) -> bt_get c' k' l = bt_get c k l.
Proof.
  intros H; induction l as [|i l IH]; [reflexivity|]; cbn; rewrite H.
  destruct (c i k) as [[]|]; cbn; auto.
Qed.
Lemma bt_insert_same keep (c c' : nat -> nat -> option comparison) x l :
  (forall i, c' i x = c i x) -> bt_insert keep c' x l = bt_insert keep c x l.
Proof.
  intros H; induction l as [|i l IH]; [reflexivity|]; cbn; rewrite H.
  destruct (c i x) as [[]|]; cbn; auto; now rewrite IH.
Qed.
Lemma bt_remove_same {K K'} (c : nat -> K -> option comparison) (c' : nat -> K' -> option comparison) k k' l :
  (forall i, c' i k' = c i k) -> bt_remove c' k' l = bt_remove c k l.
Proof.
  intros H; induction l as [|i l IH]; [reflexivity|]; cbn; rewrite H.
  destruct (c i k) as [[]|]; cbn; auto; now rewrite IH.
Qed.

Section Map.
  Context {A B : Type} (ca : A -> A -> comparison) (cb : B -> B -> comparison) (f : A -> B).
  Context (C : forall x y, cb (f x) (f y) = ca x y) (keep : bool).

  Lemma quad_cmp_map x y : quad_cmp cb (quad_map f x) (quad_map f y) = quad_cmp ca x y.
  Proof.
    destruct x as [? ? ? [?|]], y as [? ? ? [?|]]; unfold quad_cmp; cbn; now rewrite !C.
  Qed.
  Lemma triple_cmp_map x y : triple_cmp cb (triple_map f x) (triple_map f y) = triple_cmp ca x y.
  Proof. unfold triple_cmp; cbn; now rewrite !C. Qed.
  Lemma list_cmp_map {X Y} (g : X -> Y) (cx : X -> X -> comparison) (cy : Y -> Y -> comparison) :
    (forall a b, cy (g a) (g b) = cx a b) ->
    forall l m, list_cmp cy (map g l) (map g m) = list_cmp cx l m.
  Proof.
    intros H; induction l as [|x l IH]; intros [|y m]; cbn; auto.
    rewrite H; destruct (cx x y); auto.
  Qed.

  Local Notation bm := (bres_map f).
  Local Notation sm := (slab_map (bres_map f)).

  Lemma br_val_map rs i : br_val (sm rs) i = option_map f (br_val rs i).
  Proof. unfold br_val; rewrite sget_map; destruct (sget rs i); reflexivity. Qed.
  Lemma b_resource_cmp_map rs i r : b_resource_cmp cb (sm rs) i (f r) = b_resource_cmp ca rs i r.
  Proof.
    unfold b_resource_cmp; rewrite br_val_map; destruct (br_val rs i); cbn; [now rewrite C|reflexivity].
  Qed.
  Lemma b_resource_index_cmp_map rs i j :
    b_resource_index_cmp cb (sm rs) i j = b_resource_index_cmp ca rs i j.
  Proof.
    unfold b_resource_index_cmp; rewrite !br_val_map.
    destruct (br_val rs i); cbn; [|reflexivity]; destruct (br_val rs j); cbn; [now rewrite C|reflexivity].
  Qed.
  Lemma b_index_of_resource_map rs ri r :
    b_index_of_resource cb (sm rs) ri (f r) = b_index_of_resource ca rs ri r.
  Proof. apply bt_get_same; intros i; apply b_resource_cmp_map. Qed.

  Lemma b_acquire_map rs ri v found :
    b_acquire cb keep (sm rs) ri (f v) found =
    option_map (fun '(i, rs, ri) => (i, sm rs, ri)) (b_acquire ca keep rs ri v found).
  Proof.
    unfold b_acquire; destruct found as [i|].
    - rewrite sget_map; destruct (sget rs i) as [r|]; [|reflexivity]; cbn.
      do 3 f_equal; apply (sset_map bm rs i (BRes (br_value r) (S (br_occ r)))).
    - rewrite vacant_map; change (BRes (f v) 1) with (bm (BRes v 1)); rewrite sinsert_map.
      rewrite (bt_insert_same _ (b_resource_index_cmp ca (sinsert rs (BRes v 1)))).
      2: intros i; apply b_resource_index_cmp_map.
      destruct (bt_insert _ _ _ _); reflexivity.
  Qed.

  Lemma b_release_map {K K'} (c : slab (bresource A) -> nat -> K -> option comparison)
      (c' : slab (bresource B) -> nat -> K' -> option comparison) rs ri i k k' :
    (forall rs j, c' (sm rs) j k' = c rs j k) ->
    b_release c' (sm rs) ri i k' =
    option_map (fun '(rs, ri) => (sm rs, ri)) (b_release c rs ri i k).
  Proof.
    intros H; unfold b_release; rewrite sget_map; destruct (sget rs i) as [r|]; [|reflexivity]; cbn.
    destruct (br_occ r) as [|n]; [reflexivity|].
    change (BRes (f (br_value r)) n) with (bm (BRes (br_value r) n)); rewrite sset_map.
    destruct (n =? 0); [|reflexivity].
    rewrite (bt_remove_same (c (sset rs i (BRes (br_value r) n))) _ k) by (intros; apply H).
    destruct (bt_remove _ _ _) as [[x ri']|]; [|reflexivity]; cbn.
    rewrite sremove_map; destruct (sremove _ _) as [[]|]; reflexivity.
  Qed.

  (** ** [BTreeDataset] *)

  Local Notation qm := (quad_map f).
  Local Notation dm := (bd_map f).

  Lemma b_quad_with_resources_map rs q :
    b_quad_with_resources (sm rs) q = option_map qm (b_quad_with_resources rs q).
  Proof.
    unfold b_quad_with_resources; rewrite !br_val_map.
    destruct (br_val rs (q_s q)); [|reflexivity]; destruct (br_val rs (q_p q)); [|reflexivity].
    destruct (br_val rs (q_o q)); [|reflexivity]; cbn; destruct (q_g q) as [g|]; [|reflexivity].
    rewrite br_val_map; destruct (br_val rs g); reflexivity.
  Qed.
  Lemma b_quad_at_map rs qs i : b_quad_at (sm rs) qs i = option_map qm (b_quad_at rs qs i).
  Proof. unfold b_quad_at; destruct (sget qs i); [apply b_quad_with_resources_map|reflexivity]. Qed.
  Lemma b_quad_cmp_map rs qs i q : b_quad_cmp cb (sm rs) qs i (qm q) = b_quad_cmp ca rs qs i q.
  Proof.
    unfold b_quad_cmp; rewrite b_quad_at_map; destruct (b_quad_at rs qs i); cbn;
      [now rewrite quad_cmp_map|reflexivity].
  Qed.
  Lemma b_quad_index_cmp_map rs qs i j :
    b_quad_index_cmp cb (sm rs) qs i j = b_quad_index_cmp ca rs qs i j.
  Proof.
    unfold b_quad_index_cmp; rewrite !b_quad_at_map; destruct (b_quad_at rs qs i); cbn; [|reflexivity].
    destruct (b_quad_at rs qs j); cbn; [now rewrite quad_cmp_map|reflexivity].
  Qed.

  Lemma bd_iter_map d : bd_iter (dm d) = option_map (map qm) (bd_iter d).
  Proof. apply mapM_map; intros i; apply b_quad_at_map. Qed.
  Lemma bd_resources_iter_map d : bd_resources_iter (dm d) = option_map (map f) (bd_resources_iter d).
  Proof. apply mapM_map; intros i; apply br_val_map. Qed.
  Lemma b_into_iter_map rs idx : forall qs,
    b_into_iter (sm rs) qs idx = option_map (map qm) (b_into_iter rs qs idx).
  Proof.
    induction idx as [|i idx IH]; intros qs; [reflexivity|]; cbn.
    destruct (sremove qs i) as [[q qs']|]; [|reflexivity]; cbn; rewrite b_quad_with_resources_map.
    destruct (b_quad_with_resources rs q); [|reflexivity]; cbn; rewrite IH.
    destruct (b_into_iter rs qs' idx); reflexivity.
  Qed.
  Lemma bd_into_iter_map d : bd_into_iter (dm d) = option_map (map qm) (bd_into_iter d).
  Proof. apply b_into_iter_map. Qed.
  Lemma bd_contains_resource_map d r : bd_contains_resource cb (dm d) (f r) = bd_contains_resource ca d r.
  Proof. unfold bd_contains_resource; cbn [bd_map bg_map bd_resources bd_ri bg_resources bg_ri]; now rewrite b_index_of_resource_map. Qed.
  Lemma bd_contains_map d q : bd_contains cb (dm d) (qm q) = bd_contains ca d q.
  Proof.
    unfold bd_contains, bd_index_of_quad; cbn.
    rewrite (bt_get_same (b_quad_cmp ca (bd_resources d) (bd_quads d)) _ q); [reflexivity|].
    intros i; apply b_quad_cmp_map.
  Qed.

  Lemma bd_insert_map d q :
    bd_insert cb keep (dm d) (qm q) = option_map (fun '(b, d) => (b, dm d)) (bd_insert ca keep d q).
  Proof.
    unfold bd_insert; rewrite bd_contains_map; destruct (bd_contains ca d q) as [[]|]; try reflexivity.
    cbn -[b_acquire b_index_of_resource]; rewrite !b_index_of_resource_map.
    destruct (b_index_of_resource ca _ _ (q_s q)); [|reflexivity].
    destruct (b_index_of_resource ca _ _ (q_p q)); [|reflexivity].
    destruct (b_index_of_resource ca _ _ (q_o q)); [|reflexivity]; cbn -[b_acquire b_index_of_resource].
    assert (G : forall fg,
      ('(s_i, rs, ri) <- b_acquire cb keep (sm (bd_resources d)) (bd_ri d) (f (q_s q)) o;;
       '(p_i, rs, ri) <- b_acquire cb keep rs ri (f (q_p q)) o0;;
       '(o_i, rs, ri) <- b_acquire cb keep rs ri (f (q_o q)) o1;;
       '(g_i, rs, ri) <- match option_map (fun '(g, k) => (f g, k)) fg with
                         | Some (g, f) =>
                             '(g_i, rs, ri) <- b_acquire cb keep rs ri g f;; Some (Some g_i, rs, ri)
                         | None => Some (None, rs, ri)
                         end;;
       qi <- bt_insert keep (b_quad_index_cmp cb rs (sinsert (bd_quads d) (Quad s_i p_i o_i g_i)))
               (vacant_key (bd_quads d)) (bd_qi d);;
       Some (true, BDataset rs (sinsert (bd_quads d) (Quad s_i p_i o_i g_i)) ri qi)) =
      option_map (fun '(b, d) => (b, dm d))
      ('(s_i, rs, ri) <- b_acquire ca keep (bd_resources d) (bd_ri d) (q_s q) o;;
       '(p_i, rs, ri) <- b_acquire ca keep rs ri (q_p q) o0;;
       '(o_i, rs, ri) <- b_acquire ca keep rs ri (q_o q) o1;;
       '(g_i, rs, ri) <- match fg with
                         | Some (g, f) =>
                             '(g_i, rs, ri) <- b_acquire ca keep rs ri g f;; Some (Some g_i, rs, ri)
                         | None => Some (None, rs, ri)
                         end;;
       qi <- bt_insert keep (b_quad_index_cmp ca rs (sinsert (bd_quads d) (Quad s_i p_i o_i g_i)))
               (vacant_key (bd_quads d)) (bd_qi d);;
       Some (true, BDataset rs (sinsert (bd_quads d) (Quad s_i p_i o_i g_i)) ri qi))).
    { intros fg.
      rewrite b_acquire_map; apply bind_map; intros [[s_i rs1] ri1] _.
      rewrite b_acquire_map; apply bind_map; intros [[p_i rs2] ri2] _.
      rewrite b_acquire_map; apply bind_map; intros [[o_i rs3] ri3] _.
      assert (E : forall rs ri,
        match option_map (fun '(g, k) => (f g, k)) fg with
        | Some (g, f) => '(g_i, rs, ri) <- b_acquire cb keep (sm rs) ri g f;; Some (Some g_i, rs, ri)
        | None => Some (None, sm rs, ri)
        end = option_map (fun '(i, rs, ri) => (i, sm rs, ri))
          match fg with
          | Some (g, f) => '(g_i, rs, ri) <- b_acquire ca keep rs ri g f;; Some (Some g_i, rs, ri)
          | None => Some (None, rs, ri)
          end).
      { intros rs ri; destruct fg as [[g k]|]; [|reflexivity].
        cbn [option_map]; rewrite b_acquire_map; apply bind_map; intros [[i rs'] ri'] _; reflexivity. }
      rewrite E; apply bind_map; intros [[g_i rs4] ri4] _.
      rewrite (bt_insert_same keep (b_quad_index_cmp ca rs4 (sinsert (bd_quads d) (Quad s_i p_i o_i g_i))))
        by (intros i; apply b_quad_index_cmp_map).
      destruct (bt_insert _ _ _ _); reflexivity. }
    destruct (q_g q) as [g|]; cbn -[b_acquire b_index_of_resource].
    - rewrite b_index_of_resource_map; destruct (b_index_of_resource ca _ _ g); [|reflexivity].
      exact (G (Some (g, o2))).
    - exact (G None).
  Qed.

  Lemma bd_remove_map d q :
    bd_remove cb (dm d) (qm q) = option_map (fun '(b, d) => (b, dm d)) (bd_remove ca d q).
  Proof.
    unfold bd_remove; cbn -[b_release].
    rewrite (bt_remove_same (b_quad_cmp ca (bd_resources d) (bd_quads d)) _ q)
      by (intros i; apply b_quad_cmp_map).
    apply bind_same; intros [[i|] qi] _; [|reflexivity].
    apply bind_same; intros [x qs] _.
    rewrite (b_release_map (b_resource_cmp ca) _ _ _ _ (q_s q)) by (intros; apply b_resource_cmp_map).
    apply bind_map; intros [rs1 ri1] _.
    rewrite (b_release_map (b_resource_cmp ca) _ _ _ _ (q_p q)) by (intros; apply b_resource_cmp_map).
    apply bind_map; intros [rs2 ri2] _.
    rewrite (b_release_map (b_resource_cmp ca) _ _ _ _ (q_o q)) by (intros; apply b_resource_cmp_map).
    apply bind_map; intros [rs3 ri3] _.
    destruct (q_g x) as [g|]; [|reflexivity].
    rewrite (b_release_map (b_resource_index_cmp ca) _ _ _ _ g)
      by (intros; apply b_resource_index_cmp_map).
    destruct (b_release _ _ _ _ _) as [[]|]; reflexivity.
  Qed.

  Lemma bd_extend_map l : forall d,
    bd_extend cb keep (dm d) (map qm l) = option_map dm (bd_extend ca keep d l).
  Proof.
    induction l as [|q l IH]; intros d; [reflexivity|]; cbn -[bd_insert]; rewrite bd_insert_map.
    destruct (bd_insert ca keep d q) as [[b d']|]; [apply IH|reflexivity].
  Qed.
  Lemma bd_cmp_map a b : bd_cmp cb (dm a) (dm b) = bd_cmp ca a b.
  Proof.
    unfold bd_cmp; rewrite !bd_iter_map; destruct (bd_iter a); [|reflexivity].
    destruct (bd_iter b); [|reflexivity]; cbn; f_equal; apply list_cmp_map, quad_cmp_map.
  Qed.

  Lemma bd_step_map d o :
    bd_step cb keep (dm d) (op_map qm o) =
    option_map (fun '(x, d) => (out_map qm x, dm d)) (bd_step ca keep d o).
  Proof.
    destruct o; cbn [op_map bd_step].
    - rewrite bd_insert_map; destruct (bd_insert ca keep d x) as [[]|]; reflexivity.
    - rewrite bd_remove_map; destruct (bd_remove ca d x) as [[]|]; reflexivity.
    - rewrite bd_extend_map; destruct (bd_extend ca keep d l); reflexivity.
    - rewrite bd_contains_map; destruct (bd_contains ca d x); reflexivity.
    - reflexivity.
    - reflexivity.
    - rewrite bd_iter_map; destruct (bd_iter d); reflexivity.
    - rewrite bd_into_iter_map; destruct (bd_into_iter d); reflexivity.
  Qed.

  Lemma run_map {S O X S' O' X'} (st : S -> O -> option (X * S)) (st' : S' -> O' -> option (X' * S'))
      (sf : S -> S') (of : O -> O') (xf : X -> X') :
    (forall s o, st' (sf s) (of o) = option_map (fun '(x, s) => (xf x, sf s)) (st s o)) ->
    forall l s, run st' (sf s) (map of l) = option_map (fun '(xs, s) => (map xf xs, sf s)) (run st s l).
  Proof.
    intros H; induction l as [|o l IH]; intros s; [reflexivity|]; cbn; rewrite H.
    destruct (st s o) as [[x s']|]; [|reflexivity]; cbn; rewrite IH.
    destruct (run st s' l) as [[]|]; reflexivity.
  Qed.

  Lemma bd_run_map ops :
    run (bd_step cb keep) bd_new (map (op_map qm) ops) =
    option_map (fun '(xs, d) => (map (out_map qm) xs, dm d)) (run (bd_step ca keep) bd_new ops).
  Proof. exact (run_map _ _ dm _ _ bd_step_map ops bd_new). Qed.

  (** ** [BTreeGraph] *)

  Local Notation tm := (triple_map f).
  Local Notation gm := (bg_map f).

  Lemma b_triple_with_resources_map rs t :
    b_triple_with_resources (sm rs) t = option_map tm (b_triple_with_resources rs t).
  Proof.
    unfold b_triple_with_resources; rewrite !br_val_map.
    destruct (br_val rs (t_s t)); [|reflexivity]; destruct (br_val rs (t_p t)); [|reflexivity].
    destruct (br_val rs (t_o t)); reflexivity.
  Qed.
  Lemma b_triple_at_map rs ts i : b_triple_at (sm rs) ts i = option_map tm (b_triple_at rs ts i).
  Proof. unfold b_triple_at; destruct (sget ts i); [apply b_triple_with_resources_map|reflexivity]. Qed.
  Lemma b_triple_cmp_map rs ts i t : b_triple_cmp cb (sm rs) ts i (tm t) = b_triple_cmp ca rs ts i t.
  Proof.
    unfold b_triple_cmp; rewrite b_triple_at_map; destruct (b_triple_at rs ts i); cbn;
      [now rewrite triple_cmp_map|reflexivity].
  Qed.
  Lemma b_triple_index_cmp_map rs ts i j :
    b_triple_index_cmp cb (sm rs) ts i j = b_triple_index_cmp ca rs ts i j.
  Proof.
    unfold b_triple_index_cmp; rewrite !b_triple_at_map; destruct (b_triple_at rs ts i); cbn; [|reflexivity].
    destruct (b_triple_at rs ts j); cbn; [now rewrite triple_cmp_map|reflexivity].
  Qed.

  Lemma bg_iter_map g : bg_iter (gm g) = option_map (map tm) (bg_iter g).
  Proof. apply mapM_map; intros i; apply b_triple_at_map. Qed.
  Lemma bg_resources_iter_map g : bg_resources_iter (gm g) = option_map (map f) (bg_resources_iter g).
  Proof. apply mapM_map; intros i; apply br_val_map. Qed.
  Lemma b_into_triples_map rs idx : forall ts,
    b_into_triples (sm rs) ts idx = option_map (map tm) (b_into_triples rs ts idx).
  Proof.
    induction idx as [|i idx IH]; intros ts; [reflexivity|]; cbn.
    destruct (sremove ts i) as [[t ts']|]; [|reflexivity]; cbn; rewrite b_triple_with_resources_map.
    destruct (b_triple_with_resources rs t); [|reflexivity]; cbn; rewrite IH.
    destruct (b_into_triples rs ts' idx); reflexivity.
  Qed.
  Lemma bg_into_iter_map g : bg_into_iter (gm g) = option_map (map tm) (bg_into_iter g).
  Proof. apply b_into_triples_map. Qed.
  Lemma bg_contains_resource_map g r : bg_contains_resource cb (gm g) (f r) = bg_contains_resource ca g r.
  Proof. unfold bg_contains_resource; cbn [bd_map bg_map bd_resources bd_ri bg_resources bg_ri]; now rewrite b_index_of_resource_map. Qed.
  Lemma bg_contains_map g t : bg_contains cb (gm g) (tm t) = bg_contains ca g t.
  Proof.
    unfold bg_contains, bg_index_of_triple; cbn.
    rewrite (bt_get_same (b_triple_cmp ca (bg_resources g) (bg_triples g)) _ t); [reflexivity|].
    intros i; apply b_triple_cmp_map.
  Qed.

  Lemma bg_insert_map g t :
    bg_insert cb keep (gm g) (tm t) = option_map (fun '(b, g) => (b, gm g)) (bg_insert ca keep g t).
  Proof.
    unfold bg_insert; rewrite bg_contains_map; destruct (bg_contains ca g t) as [[]|]; try reflexivity.
    cbn -[b_acquire b_index_of_resource]; rewrite !b_index_of_resource_map.
    destruct (b_index_of_resource ca _ _ (t_s t)); [|reflexivity].
    destruct (b_index_of_resource ca _ _ (t_p t)); [|reflexivity].
    destruct (b_index_of_resource ca _ _ (t_o t)); [|reflexivity]; cbn -[b_acquire b_index_of_resource].
    rewrite b_acquire_map; apply bind_map; intros [[s_i rs1] ri1] _.
    rewrite b_acquire_map; apply bind_map; intros [[p_i rs2] ri2] _.
    rewrite b_acquire_map; apply bind_map; intros [[o_i rs3] ri3] _.
    rewrite (bt_insert_same keep (b_triple_index_cmp ca rs3 (sinsert (bg_triples g) (Triple s_i p_i o_i))))
      by (intros i; apply b_triple_index_cmp_map).
    destruct (bt_insert _ _ _ _); reflexivity.
  Qed.

  Lemma bg_remove_map g t :
    bg_remove cb (gm g) (tm t) = option_map (fun '(b, g) => (b, gm g)) (bg_remove ca g t).
  Proof.
    unfold bg_remove; cbn -[b_release].
    rewrite (bt_remove_same (b_triple_cmp ca (bg_resources g) (bg_triples g)) _ t)
      by (intros i; apply b_triple_cmp_map).
    apply bind_same; intros [[i|] ti] _; [|reflexivity].
    apply bind_same; intros [x ts] _.
    rewrite (b_release_map (b_resource_cmp ca) _ _ _ _ (t_s t)) by (intros; apply b_resource_cmp_map).
    apply bind_map; intros [rs1 ri1] _.
    rewrite (b_release_map (b_resource_cmp ca) _ _ _ _ (t_p t)) by (intros; apply b_resource_cmp_map).
    apply bind_map; intros [rs2 ri2] _.
    rewrite (b_release_map (b_resource_cmp ca) _ _ _ _ (t_o t)) by (intros; apply b_resource_cmp_map).
    apply bind_map; intros [rs3 ri3] _; reflexivity.
  Qed.

  Lemma bg_extend_map l : forall g,
    bg_extend cb keep (gm g) (map tm l) = option_map gm (bg_extend ca keep g l).
  Proof.
    induction l as [|t l IH]; intros g; [reflexivity|]; cbn -[bg_insert]; rewrite bg_insert_map.
    destruct (bg_insert ca keep g t) as [[b g']|]; [apply IH|reflexivity].
  Qed.
  Lemma bg_cmp_map a b : bg_cmp cb (gm a) (gm b) = bg_cmp ca a b.
  Proof.
    unfold bg_cmp; rewrite !bg_iter_map; destruct (bg_iter a); [|reflexivity].
    destruct (bg_iter b); [|reflexivity]; cbn; f_equal; apply list_cmp_map, triple_cmp_map.
  Qed.

  Lemma bg_step_map g o :
    bg_step cb keep (gm g) (op_map tm o) =
    option_map (fun '(x, g) => (out_map tm x, gm g)) (bg_step ca keep g o).
  Proof.
    destruct o; cbn [op_map bg_step].
    - rewrite bg_insert_map; destruct (bg_insert ca keep g x) as [[]|]; reflexivity.
    - rewrite bg_remove_map; destruct (bg_remove ca g x) as [[]|]; reflexivity.
    - rewrite bg_extend_map; destruct (bg_extend ca keep g l); reflexivity.
    - rewrite bg_contains_map; destruct (bg_contains ca g x); reflexivity.
    - reflexivity.
    - reflexivity.
    - rewrite bg_iter_map; destruct (bg_iter g); reflexivity.
    - rewrite bg_into_iter_map; destruct (bg_into_iter g); reflexivity.
  Qed.
  Lemma bg_run_map ops :
    run (bg_step cb keep) bg_new (map (op_map tm) ops) =
    option_map (fun '(xs, g) => (map (out_map tm) xs, gm g)) (run (bg_step ca keep) bg_new ops).
  Proof. exact (run_map _ _ gm _ _ bg_step_map ops bg_new). Qed.
End Map.
