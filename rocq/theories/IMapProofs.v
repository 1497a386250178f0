(** The indexed containers look at resources through their comparison only. *)
From Coq Require Import List Bool Arith.
Import ListNotations.
From Verif Require Import Base TripleModel TriplePatternModel QuadPatternModel SlabModel SetSpec
  IndexedSpec Machine BResourceModel BTreeDatasetModel BTreeGraphModel IResourceModel
  IndexedDatasetModel IndexedGraphModel MapSpec BMapProofs.
Open Scope panic_scope.

(** Components of patterns. *)
Definition ps_map {A B} (f : A -> B) (c : pat_s A) : pat_s B :=
  match c with PS_Any => PS_Any | PS_Given r => PS_Given (f r) end.
Definition pp_map {A B} (f : A -> B) (c : pat_p A) : pat_p B :=
  match c with PP_Any => PP_Any | PP_SameS => PP_SameS | PP_Given r => PP_Given (f r) end.
Definition po_map {A B} (f : A -> B) (c : pat_o A) : pat_o B :=
  match c with
  | PO_Any => PO_Any | PO_SameS => PO_SameS | PO_SameP => PO_SameP | PO_Given r => PO_Given (f r)
  end.
Definition pg_map {A B} (f : A -> B) (c : pat_g A) : pat_g B :=
  match c with
  | PG_Any => PG_Any | PG_SameS => PG_SameS | PG_SameP => PG_SameP | PG_SameO => PG_SameO
  | PG_Given r => PG_Given (option_map f r)
  end.

Section Patterns.
  Context {A B : Type} (f : A -> B).
  Ltac all := intros; repeat match goal with |- context [match ?x with _ => _ end] => destruct x end; reflexivity.
  Lemma cq_parts_map c :
    cq_subject (cq_map f c) = ps_map f (cq_subject c) /\
    cq_predicate (cq_map f c) = pp_map f (cq_predicate c) /\
    cq_object (cq_map f c) = po_map f (cq_object c) /\
    cq_graph (cq_map f c) = pg_map f (cq_graph c).
  Proof.
    destruct c as [[[[| | | |g]|[| | |g]|[| | |g]|o [| | |g]]|[[| | |g]|[| |g]|o [| |g]]|p [[| | |g]|[| |g]|o [| |g]]]
                  |s [[[| | |g]|[| |g]|o [| |g]]|p [[| |g]|o [|g]]]];
      try (repeat split; fail); destruct g; repeat split.
  Qed.
  Lemma cq_into_parts_map c :
    cq_into_parts (cq_map f c) =
    let '(s, p, o, g) := cq_into_parts c in (ps_map f s, pp_map f p, po_map f o, pg_map f g).
  Proof.
    destruct c as [[[[| | | |g]|[| | |g]|[| | |g]|o [| | |g]]|[[| | |g]|[| |g]|o [| |g]]|p [[| | |g]|[| |g]|o [| |g]]]
                  |s [[[| | |g]|[| |g]|o [| |g]]|p [[| |g]|o [|g]]]];
      try reflexivity; destruct g; reflexivity.
  Qed.
  Lemma ct_parts_map c :
    ct_subject (ct_map f c) = ps_map f (ct_subject c) /\
    ct_predicate (ct_map f c) = pp_map f (ct_predicate c) /\
    ct_object (ct_map f c) = po_map f (ct_object c).
  Proof.
    destruct c as [[[| | |o]|[| |o]|p [| |o]]|s [[| |o]|p [|o]]]; repeat split.
  Qed.
End Patterns.

Section Map.
  Context {A B : Type} (ca : A -> A -> comparison) (cb : B -> B -> comparison) (f : A -> B).
  Context (C : forall x y, cb (f x) (f y) = ca x y) (keep : bool).

  Local Notation rm := (ires_map f).
  Local Notation sm := (slab_map (ires_map f)).
  Local Notation qm := (quad_map f).
  Local Notation tm := (triple_map f).
  Local Notation dm := (id_map f).
  Local Notation gm := (ig_map f).

  Lemma ir_at_map p x : ir_at p (rm x) = ir_at p x.
  Proof. destruct p; reflexivity. Qed.
  Lemma ir_upd_map p g x : ir_upd p g (rm x) = rm (ir_upd p g x).
  Proof. destruct p; reflexivity. Qed.
  Lemma ir_single_map p v i : ir_single p (f v) i = rm (ir_single p v i).
  Proof. destruct p; reflexivity. Qed.
  Lemma ir_is_empty_map x : ir_is_empty (rm x) = ir_is_empty x.
  Proof. reflexivity. Qed.

  Lemma ir_val_map rs i : ir_val (sm rs) i = option_map f (ir_val rs i).
  Proof. unfold ir_val; rewrite sget_map; destruct (sget rs i); reflexivity. Qed.
  Lemma i_resource_cmp_map rs i r : i_resource_cmp cb (sm rs) i (f r) = i_resource_cmp ca rs i r.
  Proof.
    unfold i_resource_cmp; rewrite ir_val_map; destruct (ir_val rs i); cbn; [now rewrite C|reflexivity].
  Qed.
  Lemma i_resource_index_cmp_map rs i j :
    i_resource_index_cmp cb (sm rs) i j = i_resource_index_cmp ca rs i j.
  Proof.
    unfold i_resource_index_cmp; rewrite !ir_val_map.
    destruct (ir_val rs i); cbn; [|reflexivity]; destruct (ir_val rs j); cbn; [now rewrite C|reflexivity].
  Qed.
  Lemma i_index_of_resource_map rs ri r :
    i_index_of_resource cb (sm rs) ri (f r) = i_index_of_resource ca rs ri r.
  Proof. apply bt_get_same; intros i; apply i_resource_cmp_map. Qed.
  Lemma i_get_resource_map rs ri r :
    i_get_resource cb (sm rs) ri (f r) = option_map (option_map rm) (i_get_resource ca rs ri r).
  Proof.
    unfold i_get_resource; rewrite i_index_of_resource_map.
    destruct (i_index_of_resource ca rs ri r) as [[k|]|]; cbn; [|reflexivity|reflexivity].
    now rewrite sget_map.
  Qed.

  Lemma i_acquire_map rs ri p i v found :
    i_acquire cb keep (sm rs) ri p i (f v) found =
    option_map (fun '(k, rs, ri) => (k, sm rs, ri)) (i_acquire ca keep rs ri p i v found).
  Proof.
    unfold i_acquire; destruct found as [k|].
    - rewrite sget_map; destruct (sget rs k) as [r|]; [|reflexivity]; cbn.
      now rewrite ir_upd_map, sset_map.
    - rewrite vacant_map, ir_single_map, sinsert_map.
      rewrite (bt_insert_same _ (i_resource_index_cmp ca (sinsert rs (ir_single p v i)))).
      2: intros j; apply i_resource_index_cmp_map.
      destruct (bt_insert _ _ _ _); reflexivity.
  Qed.

  Lemma i_release_map {K K'} (c : slab (iresource A) -> nat -> K -> option comparison)
      (c' : slab (iresource B) -> nat -> K' -> option comparison) rs ri p i k key key' :
    (forall rs j, c' (sm rs) j key' = c rs j key) ->
    i_release c' (sm rs) ri p i k key' =
    option_map (fun '(rs, ri, b) => (sm rs, ri, b)) (i_release c rs ri p i k key).
  Proof.
    intros H; unfold i_release; rewrite sget_map; destruct (sget rs k) as [r|]; [|reflexivity].
    cbn -[ir_is_empty]; rewrite ir_upd_map, ir_is_empty_map, sset_map.
    destruct (ir_is_empty _); [|reflexivity].
    rewrite (bt_remove_same (c (sset rs k (ir_upd p (ns_remove i) r))) _ key) by (intros; apply H).
    destruct (bt_remove _ _ _) as [[x ri']|]; [|reflexivity]; cbn.
    rewrite sremove_map; destruct (sremove _ _) as [[]|]; reflexivity.
  Qed.

  Section Constraints.
    Context {Q : Type}.
    Lemma s_constraint_map rs ri c :
      @s_constraint _ cb Q (sm rs) ri (ps_map f c) = s_constraint ca rs ri c.
    Proof.
      destruct c as [|r]; [reflexivity|]; cbn [ps_map s_constraint]; rewrite i_get_resource_map.
      destruct (i_get_resource ca rs ri r) as [[]|]; reflexivity.
    Qed.
    Lemma given_constraint_map rs ri p r :
      @given_constraint _ cb Q (sm rs) ri p (f r) = given_constraint ca rs ri p r.
    Proof.
      unfold given_constraint; rewrite i_get_resource_map.
      destruct (i_get_resource ca rs ri r) as [[]|]; cbn; try reflexivity; now rewrite ir_at_map.
    Qed.
    Lemma multi_constraint_map rs ri p l :
      @multi_constraint _ cb Q (sm rs) ri p (map f l) = multi_constraint ca rs ri p l.
    Proof.
      unfold multi_constraint.
      assert (E : multi_indexes cb (sm rs) ri p (map f l) = multi_indexes ca rs ri p l).
      { induction l as [|r l IH]; [reflexivity|]; cbn [map multi_indexes]; rewrite i_get_resource_map, IH.
        destruct (i_get_resource ca rs ri r) as [[x|]|]; cbn; try reflexivity; now rewrite ir_at_map. }
      now rewrite E.
    Qed.
  End Constraints.

  (** ** [IndexedBTreeDataset] *)

  Lemma i_quad_with_resources_map rs q :
    i_quad_with_resources (sm rs) q = option_map qm (i_quad_with_resources rs q).
  Proof.
    unfold i_quad_with_resources; rewrite !ir_val_map.
    destruct (ir_val rs (q_s q)); [|reflexivity]; destruct (ir_val rs (q_p q)); [|reflexivity].
    destruct (ir_val rs (q_o q)); [|reflexivity]; cbn; destruct (q_g q) as [g|]; [|reflexivity].
    rewrite ir_val_map; destruct (ir_val rs g); reflexivity.
  Qed.
  Lemma i_quad_at_map rs qs i : i_quad_at (sm rs) qs i = option_map qm (i_quad_at rs qs i).
  Proof. unfold i_quad_at; destruct (sget qs i); [apply i_quad_with_resources_map|reflexivity]. Qed.
  Lemma i_quad_cmp_map rs qs i q : i_quad_cmp cb (sm rs) qs i (qm q) = i_quad_cmp ca rs qs i q.
  Proof.
    unfold i_quad_cmp; rewrite i_quad_at_map; destruct (i_quad_at rs qs i); cbn;
      [now rewrite (quad_cmp_map ca cb f C)|reflexivity].
  Qed.
  Lemma i_quad_index_cmp_map rs qs i j :
    i_quad_index_cmp cb (sm rs) qs i j = i_quad_index_cmp ca rs qs i j.
  Proof.
    unfold i_quad_index_cmp; rewrite !i_quad_at_map; destruct (i_quad_at rs qs i); cbn; [|reflexivity].
    destruct (i_quad_at rs qs j); cbn; [now rewrite (quad_cmp_map ca cb f C)|reflexivity].
  Qed.

  Lemma i_use_map rs p k i : i_use (sm rs) p k i = option_map sm (i_use rs p k i).
  Proof.
    unfold i_use; rewrite sget_map; destruct (sget rs k); [|reflexivity]; cbn.
    now rewrite ir_upd_map, sset_map.
  Qed.
  Lemma id_index_map idx : forall d, id_index idx (dm d) = option_map dm (id_index idx d).
  Proof.
    induction idx as [|i idx IH]; intros d; [reflexivity|]; cbn -[i_use].
    apply bind_same; intros q _.
    rewrite i_use_map; apply bind_map; intros rs1 _.
    rewrite i_use_map; apply bind_map; intros rs2 _.
    rewrite i_use_map; apply bind_map; intros rs3 _.
    destruct (q_g q) as [g|].
    - rewrite i_use_map; apply bind_map; intros rs4 _.
      now rewrite <- IH.
    - cbn [bind]; now rewrite <- IH.
  Qed.
  Lemma id_from_non_indexed_map b :
    id_from_non_indexed (bd_map f b) = option_map dm (id_from_non_indexed b).
  Proof.
    unfold id_from_non_indexed; rewrite <- id_index_map; cbn -[scollect spairs]; f_equal.
    unfold id_map; cbn -[scollect spairs]; f_equal; rewrite spairs_map, <- scollect_map, !map_map; f_equal.
    apply map_ext; intros [i r]; reflexivity.
  Qed.

  Lemma id_iter_map d : id_iter (dm d) = option_map (map qm) (id_iter d).
  Proof. apply mapM_map; intros i; apply i_quad_at_map. Qed.
  Lemma id_values_map d l : id_values (dm d) l = option_map (map f) (id_values d l).
  Proof. apply mapM_map; intros i; apply ir_val_map. Qed.
  Lemma i_into_iter_map rs idx : forall qs,
    i_into_iter (sm rs) qs idx = option_map (map qm) (i_into_iter rs qs idx).
  Proof.
    induction idx as [|i idx IH]; intros qs; [reflexivity|]; cbn.
    destruct (sremove qs i) as [[q qs']|]; [|reflexivity]; cbn; rewrite i_quad_with_resources_map.
    destruct (i_quad_with_resources rs q); [|reflexivity]; cbn; rewrite IH.
    destruct (i_into_iter rs qs' idx); reflexivity.
  Qed.
  Lemma id_into_iter_map d : id_into_iter (dm d) = option_map (map qm) (id_into_iter d).
  Proof. apply i_into_iter_map. Qed.
  Lemma id_contains_resource_map d r : id_contains_resource cb (dm d) (f r) = id_contains_resource ca d r.
  Proof.
    unfold id_contains_resource; cbn [id_map id_resources id_ri]; now rewrite i_index_of_resource_map.
  Qed.
  Lemma id_contains_map d q : id_contains cb (dm d) (qm q) = id_contains ca d q.
  Proof.
    unfold id_contains, id_index_of_quad; cbn.
    rewrite (bt_get_same (i_quad_cmp ca (id_resources d) (id_quads d)) _ q); [reflexivity|].
    intros i; apply i_quad_cmp_map.
  Qed.
  Lemma id_resource_count_map d : id_resource_count (dm d) = id_resource_count d.
  Proof. apply slen_map. Qed.

  Lemma id_insert_map d q :
    id_insert cb keep (dm d) (qm q) = option_map (fun '(b, d) => (b, dm d)) (id_insert ca keep d q).
  Proof.
    unfold id_insert; rewrite id_contains_map; destruct (id_contains ca d q) as [[]|]; try reflexivity.
    cbn [bind]; cbv zeta.
    change (id_resources (dm d)) with (sm (id_resources d)); change (id_ri (dm d)) with (id_ri d).
    change (q_s (qm q)) with (f (q_s q)); change (q_p (qm q)) with (f (q_p q)).
    change (q_o (qm q)) with (f (q_o q)); change (q_g (qm q)) with (option_map f (q_g q)).
    rewrite !i_index_of_resource_map.
    apply bind_same; intros fs _; apply bind_same; intros fp _; apply bind_same; intros fo _.
    assert (E : match option_map f (q_g q) with
                | Some g => k <- i_index_of_resource cb (sm (id_resources d)) (id_ri d) g;; Some (Some (g, k))
                | None => Some None
                end = option_map (option_map (fun '(g, k) => (f g, k)))
                match q_g q with
                | Some g => k <- i_index_of_resource ca (id_resources d) (id_ri d) g;; Some (Some (g, k))
                | None => Some None
                end).
    { destruct (q_g q) as [g|]; [|reflexivity]; cbn -[i_index_of_resource]; rewrite i_index_of_resource_map.
      destruct (i_index_of_resource ca _ _ g); reflexivity. }
    rewrite E; apply bind_map; intros fg _; clear E.
    rewrite i_acquire_map; apply bind_map; intros [[s_i rs1] ri1] _.
    rewrite i_acquire_map; apply bind_map; intros [[p_i rs2] ri2] _.
    rewrite i_acquire_map; apply bind_map; intros [[o_i rs3] ri3] _.
    change (vacant_key (id_quads (dm d))) with (vacant_key (id_quads d)).
    set (i := vacant_key (id_quads d)).
    assert (E :
        match option_map (fun '(g, k) => (f g, k)) fg with
        | Some (g, k) =>
            '(g_i, rs, ri) <- i_acquire cb keep (sm rs3) ri3 PosG i g k;; Some (Some g_i, rs, ri)
        | None => Some (None, sm rs3, ri3)
        end = option_map (fun '(i, rs, ri) => (i, sm rs, ri))
          match fg with
          | Some (g, k) => '(g_i, rs, ri) <- i_acquire ca keep rs3 ri3 PosG i g k;; Some (Some g_i, rs, ri)
          | None => Some (None, rs3, ri3)
          end).
    { destruct fg as [[g k]|]; [|reflexivity].
      cbn [option_map]; rewrite i_acquire_map; apply bind_map; intros [[i' rs'] ri'] _; reflexivity. }
    rewrite E; apply bind_map; intros [[g_i rs4] ri4] _.
    rewrite (bt_insert_same keep (i_quad_index_cmp ca rs4 (sinsert (id_quads d) (Quad s_i p_i o_i g_i))))
      by (intros j; apply i_quad_index_cmp_map).
    change (id_qi (dm d)) with (id_qi d).
    destruct (bt_insert _ _ _ _); reflexivity.
  Qed.

  Lemma id_remove_by_index_map d i b :
    id_remove_by_index cb (dm d) i b = option_map dm (id_remove_by_index ca d i b).
  Proof.
    unfold id_remove_by_index; cbv zeta.
    change (id_resources (dm d)) with (sm (id_resources d)); change (id_quads (dm d)) with (id_quads d).
    rewrite (bt_remove_same (i_quad_index_cmp ca (id_resources d) (id_quads d)) _ i)
      by (intros; apply i_quad_index_cmp_map).
    change (id_qi (dm d)) with (id_qi d).
    apply bind_same; intros qi _; apply bind_same; intros [x qs] _.
    change (id_ri (dm d)) with (id_ri d).
    rewrite (i_release_map (i_resource_index_cmp ca) _ _ _ _ _ _ (q_s x))
      by (intros; apply i_resource_index_cmp_map).
    apply bind_map; intros [[rs1 ri1] b1] _.
    rewrite (i_release_map (i_resource_index_cmp ca) _ _ _ _ _ _ (q_p x))
      by (intros; apply i_resource_index_cmp_map).
    apply bind_map; intros [[rs2 ri2] b2] _.
    rewrite (i_release_map (i_resource_index_cmp ca) _ _ _ _ _ _ (q_o x))
      by (intros; apply i_resource_index_cmp_map).
    apply bind_map; intros [[rs3 ri3] b3] _.
    destruct (q_g x) as [g|]; [|reflexivity].
    rewrite (i_release_map (i_resource_index_cmp ca) _ _ _ _ _ _ g)
      by (intros; apply i_resource_index_cmp_map).
    apply bind_map; intros [[rs4 ri4] b4] _; reflexivity.
  Qed.

  Lemma id_remove_map d q :
    id_remove cb (dm d) (qm q) = option_map (fun '(b, d) => (b, dm d)) (id_remove ca d q).
  Proof.
    unfold id_remove.
    change (id_resources (dm d)) with (sm (id_resources d)); change (id_quads (dm d)) with (id_quads d).
    rewrite (bt_remove_same (i_quad_cmp ca (id_resources d) (id_quads d)) _ q)
      by (intros; apply i_quad_cmp_map).
    change (id_qi (dm d)) with (id_qi d); apply bind_same; intros [[i|] qi] _; [|reflexivity].
    cbv zeta.
    change (IDataset (sm (id_resources d)) (id_quads d) (id_ri (dm d)) qi (id_s (dm d)) (id_p (dm d))
             (id_o (dm d)) (id_dg (dm d)) (id_ng (dm d)))
      with (dm (IDataset (id_resources d) (id_quads d) (id_ri d) qi (id_s d) (id_p d)
             (id_o d) (id_dg d) (id_ng d))).
    rewrite id_remove_by_index_map; apply bind_map; intros d' _; reflexivity.
  Qed.

  Lemma into_triple_map q : fst (into_triple (qm q)) = tm (fst (into_triple q)).
  Proof. reflexivity. Qed.
  Lemma id_remove_all_map idx : forall d g,
    id_remove_all cb keep idx (dm d) (bg_map f g) =
    option_map (fun '(g, d) => (bg_map f g, dm d)) (id_remove_all ca keep idx d g).
  Proof.
    induction idx as [|i idx IH]; intros d g; [reflexivity|].
    cbn [id_remove_all].
    change (id_resources (dm d)) with (sm (id_resources d)); change (id_quads (dm d)) with (id_quads d).
    rewrite i_quad_at_map; apply bind_map; intros q _.
    rewrite id_remove_by_index_map; apply bind_map; intros d' _.
    rewrite into_triple_map, (bg_insert_map ca cb f C keep); apply bind_map; intros [b g'] _; apply IH.
  Qed.
  Lemma id_remove_graph_map d g :
    id_remove_graph cb keep (dm d) (option_map f g) =
    option_map (fun '(r, d) => (option_map (bg_map f) r, dm d)) (id_remove_graph ca keep d g).
  Proof.
    unfold id_remove_graph.
    assert (E : match option_map f g with
                | Some g =>
                    k <- i_index_of_resource cb (id_resources (dm d)) (id_ri (dm d)) g ;;
                    match k with
                    | None => Some None
                    | Some k =>
                        if ns_mem k (id_ng (dm d)) then
                          r <- sget (id_resources (dm d)) k ;; Some (Some (ir_g r))
                        else Some None
                    end
                | None => Some (Some (id_dg (dm d)))
                end =
                match g with
                | Some g =>
                    k <- i_index_of_resource ca (id_resources d) (id_ri d) g ;;
                    match k with
                    | None => Some None
                    | Some k =>
                        if ns_mem k (id_ng d) then
                          r <- sget (id_resources d) k ;; Some (Some (ir_g r))
                        else Some None
                    end
                | None => Some (Some (id_dg d))
                end).
    { destruct g as [g|]; [|reflexivity]; cbn [option_map id_map id_resources id_ri id_ng].
      rewrite i_index_of_resource_map; destruct (i_index_of_resource ca _ _ g) as [[k|]|]; try reflexivity.
      cbn [bind]; destruct (ns_mem k (id_ng d)); [|reflexivity].
      rewrite sget_map; destruct (sget (id_resources d) k); reflexivity. }
    rewrite E; apply bind_same; intros [idx|] _; [|reflexivity].
    change (@bg_new B) with (bg_map f (@bg_new A)); rewrite id_remove_all_map; apply bind_map.
    intros [g' d'] _; reflexivity.
  Qed.

  Lemma id_extend_map l : forall d,
    id_extend cb keep (dm d) (map qm l) = option_map dm (id_extend ca keep d l).
  Proof.
    induction l as [|q l IH]; intros d; [reflexivity|]; cbn [id_extend map]; rewrite id_insert_map.
    apply bind_map; intros [b d'] _; apply IH.
  Qed.

  Lemma p_constraint_map d c : p_constraint cb (dm d) (pp_map f c) = p_constraint ca d c.
  Proof. destruct c; try reflexivity; apply given_constraint_map. Qed.
  Lemma o_constraint_map d c : o_constraint cb (dm d) (po_map f c) = o_constraint ca d c.
  Proof. destruct c; try reflexivity; apply given_constraint_map. Qed.
  Lemma g_constraint_map d c : g_constraint cb (dm d) (pg_map f c) = g_constraint ca d c.
  Proof. destruct c as [| | | |[]]; try reflexivity; apply given_constraint_map. Qed.
  Lemma pm_new_map d c : pm_new cb (dm d) (cq_map f c) = pm_new ca d c.
  Proof.
    unfold pm_new; destruct (cq_parts_map f c) as (-> & -> & -> & ->).
    rewrite p_constraint_map, o_constraint_map, g_constraint_map.
    cbn [id_map id_resources id_ri]; now rewrite s_constraint_map.
  Qed.
  Lemma pm_new_multi_map d c : pm_new_multi cb (dm d) (cq_map (map f) c) = pm_new_multi ca d c.
  Proof.
    unfold pm_new_multi; rewrite cq_into_parts_map.
    destruct (cq_into_parts c) as [[[s p] o] g]; cbv zeta.
    destruct s, p, o, g as [| | | |[]]; cbn [ps_map pp_map po_map pg_map option_map id_map id_resources id_ri id_dg];
      now rewrite ?multi_constraint_map.
  Qed.
  Lemma pm_collect_map fuel cap d : forall m,
    pm_collect fuel cap (dm d) m = option_map (map qm) (pm_collect fuel cap d m).
  Proof.
    induction fuel as [|fuel IH]; intros m; [reflexivity|]; cbn -[pm_next i_quad_with_resources].
    apply bind_same; intros [[[i q] m']|] _; [|reflexivity].
    rewrite i_quad_with_resources_map; apply bind_map; intros x _.
    rewrite IH; apply bind_map; intros l _; reflexivity.
  Qed.
  Lemma id_pattern_matching_map d spare c :
    id_pattern_matching cb (dm d) spare (cq_map f c) =
    option_map (map qm) (id_pattern_matching ca d spare c).
  Proof.
    unfold id_pattern_matching; rewrite pm_new_map; apply bind_same; intros m _; apply pm_collect_map.
  Qed.
  Lemma id_multi_pattern_matching_map d spare c :
    id_multi_pattern_matching cb (dm d) spare (cq_map (map f) c) =
    option_map (map qm) (id_multi_pattern_matching ca d spare c).
  Proof.
    unfold id_multi_pattern_matching; rewrite pm_new_multi_map; apply bind_same; intros m _.
    apply pm_collect_map.
  Qed.
  Lemma pm_extract_map n cap : forall d m,
    pm_extract cb n cap (dm d) m =
    option_map (fun '(l, d) => (map qm l, dm d)) (pm_extract ca n cap d m).
  Proof.
    induction n as [|n IH]; intros d m; [reflexivity|]; cbn [pm_extract].
    change (id_resources (dm d)) with (sm (id_resources d)); change (id_quads (dm d)) with (id_quads d).
    apply bind_same; intros [[[i q] m']|] _; [|reflexivity].
    rewrite i_quad_with_resources_map; apply bind_map; intros x _.
    rewrite id_remove_by_index_map; apply bind_map; intros d' _.
    rewrite IH; apply bind_map; intros [l d''] _; reflexivity.
  Qed.
  Lemma id_extract_map d spare c n :
    id_extract cb (dm d) spare (cq_map f c) n =
    option_map (fun '(l, d) => (map qm l, dm d)) (id_extract ca d spare c n).
  Proof. unfold id_extract; rewrite pm_new_map; apply bind_same; intros m _; apply pm_extract_map. Qed.
  Lemma id_cmp_map a b : id_cmp cb (dm a) (dm b) = id_cmp ca a b.
  Proof.
    unfold id_cmp; rewrite !id_iter_map; destruct (id_iter a); [|reflexivity].
    destruct (id_iter b); [|reflexivity]; cbn; f_equal; apply list_cmp_map, quad_cmp_map, C.
  Qed.

  Lemma id_step_map d o :
    id_step cb keep (dm d) (iop_map f o) =
    option_map (fun '(x, d) => (iout_map f x, dm d)) (id_step ca keep d o).
  Proof.
    destruct o as [[]|g|c n spare]; cbn [iop_map op_map id_step].
    - rewrite id_insert_map; destruct (id_insert ca keep d x) as [[]|]; reflexivity.
    - rewrite id_remove_map; destruct (id_remove ca d x) as [[]|]; reflexivity.
    - rewrite id_extend_map; destruct (id_extend ca keep d l); reflexivity.
    - rewrite id_contains_map; destruct (id_contains ca d x); reflexivity.
    - reflexivity.
    - reflexivity.
    - rewrite id_iter_map; destruct (id_iter d); reflexivity.
    - rewrite id_into_iter_map; destruct (id_into_iter d); reflexivity.
    - rewrite id_remove_graph_map; destruct (id_remove_graph ca keep d g) as [[[b|] d']|]; try reflexivity.
      cbn -[bg_iter]; rewrite bg_iter_map; destruct (bg_iter b); reflexivity.
    - rewrite id_extract_map; destruct (id_extract ca d spare c n) as [[]|]; reflexivity.
  Qed.

  Lemma id_reached_map ops0 ops xs d :
    id_reached ca keep ops0 ops xs d ->
    id_reached cb keep (map (op_map qm) ops0) (map (iop_map f) ops) (map (iout_map f) xs) (dm d).
  Proof.
    intros (xs0 & b & d0 & H0 & H1 & H2).
    exists (map (out_map qm) xs0), (bd_map f b), (dm d0); split; [|split].
    - now rewrite (bd_run_map ca cb f C), H0.
    - now rewrite id_from_non_indexed_map, H1.
    - now rewrite (run_map _ _ dm _ _ id_step_map), H2.
  Qed.
  Lemma id_reached_unmap ops0 ops ys e :
    id_reached cb keep (map (op_map qm) ops0) (map (iop_map f) ops) ys e ->
    exists xs d, id_reached ca keep ops0 ops xs d /\ ys = map (iout_map f) xs /\ e = dm d.
  Proof.
    intros (xs0 & b & d0 & H0 & H1 & H2).
    rewrite (bd_run_map ca cb f C) in H0.
    destruct (run (bd_step ca keep) bd_new ops0) as [[ys0 c]|] eqn:E0; [|discriminate].
    injection H0 as <- <-; rewrite id_from_non_indexed_map in H1.
    destruct (id_from_non_indexed c) as [c0|] eqn:E1; [|discriminate]; injection H1 as <-.
    rewrite (run_map _ _ dm _ _ id_step_map) in H2.
    destruct (run (id_step ca keep) c0 ops) as [[xs d]|] eqn:E2; [|discriminate]; injection H2 as <- <-.
    exists xs, d; split; [exists ys0, c, c0; auto|auto].
  Qed.

  (** ** [IndexedBTreeGraph] *)

  Lemma i_triple_with_resources_map rs t :
    i_triple_with_resources (sm rs) t = option_map tm (i_triple_with_resources rs t).
  Proof.
    unfold i_triple_with_resources; rewrite !ir_val_map.
    destruct (ir_val rs (t_s t)); [|reflexivity]; destruct (ir_val rs (t_p t)); [|reflexivity].
    destruct (ir_val rs (t_o t)); reflexivity.
  Qed.
  Lemma i_triple_at_map rs ts i : i_triple_at (sm rs) ts i = option_map tm (i_triple_at rs ts i).
  Proof. unfold i_triple_at; destruct (sget ts i); [apply i_triple_with_resources_map|reflexivity]. Qed.
  Lemma i_triple_cmp_map rs ts i t : i_triple_cmp cb (sm rs) ts i (tm t) = i_triple_cmp ca rs ts i t.
  Proof.
    unfold i_triple_cmp; rewrite i_triple_at_map; destruct (i_triple_at rs ts i); cbn;
      [now rewrite (triple_cmp_map ca cb f C)|reflexivity].
  Qed.
  Lemma i_triple_index_cmp_map rs ts i j :
    i_triple_index_cmp cb (sm rs) ts i j = i_triple_index_cmp ca rs ts i j.
  Proof.
    unfold i_triple_index_cmp; rewrite !i_triple_at_map; destruct (i_triple_at rs ts i); cbn; [|reflexivity].
    destruct (i_triple_at rs ts j); cbn; [now rewrite (triple_cmp_map ca cb f C)|reflexivity].
  Qed.

  Lemma ig_use_map rs p k i : ig_use (sm rs) p k i = option_map sm (ig_use rs p k i).
  Proof. exact (i_use_map rs p k i). Qed.
  Lemma ig_index_map idx : forall g, ig_index idx (gm g) = option_map gm (ig_index idx g).
  Proof.
    induction idx as [|i idx IH]; intros g; [reflexivity|]; cbn -[ig_use].
    apply bind_same; intros t _.
    rewrite ig_use_map; apply bind_map; intros rs1 _.
    rewrite ig_use_map; apply bind_map; intros rs2 _.
    rewrite ig_use_map; apply bind_map; intros rs3 _.
    now rewrite <- IH.
  Qed.
  Lemma ig_from_non_indexed_map b :
    ig_from_non_indexed (bg_map f b) = option_map gm (ig_from_non_indexed b).
  Proof.
    unfold ig_from_non_indexed; rewrite <- ig_index_map; cbn -[scollect spairs]; f_equal.
    unfold ig_map; cbn -[scollect spairs]; f_equal; rewrite spairs_map, <- scollect_map, !map_map; f_equal.
    apply map_ext; intros [i r]; reflexivity.
  Qed.

  Lemma ig_iter_map g : ig_iter (gm g) = option_map (map tm) (ig_iter g).
  Proof. apply mapM_map; intros i; apply i_triple_at_map. Qed.
  Lemma ig_values_map g l : ig_values (gm g) l = option_map (map f) (ig_values g l).
  Proof. apply mapM_map; intros i; apply ir_val_map. Qed.
  Lemma ig_into_triples_map rs idx : forall ts,
    ig_into_triples (sm rs) ts idx = option_map (map tm) (ig_into_triples rs ts idx).
  Proof.
    induction idx as [|i idx IH]; intros ts; [reflexivity|]; cbn.
    destruct (sremove ts i) as [[t ts']|]; [|reflexivity]; cbn; rewrite i_triple_with_resources_map.
    destruct (i_triple_with_resources rs t); [|reflexivity]; cbn; rewrite IH.
    destruct (ig_into_triples rs ts' idx); reflexivity.
  Qed.
  Lemma ig_into_iter_map g : ig_into_iter (gm g) = option_map (map tm) (ig_into_iter g).
  Proof. apply ig_into_triples_map. Qed.
  Lemma ig_contains_resource_map g r : ig_contains_resource cb (gm g) (f r) = ig_contains_resource ca g r.
  Proof.
    unfold ig_contains_resource; cbn [ig_map ig_resources ig_ri]; now rewrite i_index_of_resource_map.
  Qed.
  Lemma ig_contains_map g t : ig_contains cb (gm g) (tm t) = ig_contains ca g t.
  Proof.
    unfold ig_contains, ig_index_of_triple; cbn.
    rewrite (bt_get_same (i_triple_cmp ca (ig_resources g) (ig_triples g)) _ t); [reflexivity|].
    intros i; apply i_triple_cmp_map.
  Qed.
  Lemma ig_resource_count_map g : ig_resource_count (gm g) = ig_resource_count g.
  Proof. apply slen_map. Qed.

  Lemma ig_insert_map g t :
    ig_insert cb keep (gm g) (tm t) = option_map (fun '(b, g) => (b, gm g)) (ig_insert ca keep g t).
  Proof.
    unfold ig_insert; rewrite ig_contains_map; destruct (ig_contains ca g t) as [[]|]; try reflexivity.
    cbn [bind]; cbv zeta.
    change (ig_resources (gm g)) with (sm (ig_resources g)); change (ig_ri (gm g)) with (ig_ri g).
    change (t_s (tm t)) with (f (t_s t)); change (t_p (tm t)) with (f (t_p t)).
    change (t_o (tm t)) with (f (t_o t)).
    rewrite !i_index_of_resource_map.
    apply bind_same; intros fs _; apply bind_same; intros fp _; apply bind_same; intros fo _.
    change (vacant_key (ig_triples (gm g))) with (vacant_key (ig_triples g)).
    rewrite i_acquire_map; apply bind_map; intros [[s_i rs1] ri1] _.
    rewrite i_acquire_map; apply bind_map; intros [[p_i rs2] ri2] _.
    rewrite i_acquire_map; apply bind_map; intros [[o_i rs3] ri3] _.
    rewrite (bt_insert_same keep (i_triple_index_cmp ca rs3 (sinsert (ig_triples g) (Triple s_i p_i o_i))))
      by (intros j; apply i_triple_index_cmp_map).
    change (ig_ti (gm g)) with (ig_ti g).
    destruct (bt_insert _ _ _ _); reflexivity.
  Qed.

  Lemma ig_remove_map g t :
    ig_remove cb (gm g) (tm t) = option_map (fun '(b, g) => (b, gm g)) (ig_remove ca g t).
  Proof.
    unfold ig_remove; cbv zeta.
    change (ig_resources (gm g)) with (sm (ig_resources g)); change (ig_triples (gm g)) with (ig_triples g).
    rewrite (bt_remove_same (i_triple_cmp ca (ig_resources g) (ig_triples g)) _ t)
      by (intros i; apply i_triple_cmp_map).
    change (ig_ti (gm g)) with (ig_ti g).
    apply bind_same; intros [[i|] ti] _; [|reflexivity].
    apply bind_same; intros [x ts] _.
    change (ig_ri (gm g)) with (ig_ri g).
    rewrite (i_release_map (i_resource_cmp ca) _ _ _ _ _ _ (t_s t)) by (intros; apply i_resource_cmp_map).
    apply bind_map; intros [[rs1 ri1] b1] _.
    rewrite (i_release_map (i_resource_cmp ca) _ _ _ _ _ _ (t_p t)) by (intros; apply i_resource_cmp_map).
    apply bind_map; intros [[rs2 ri2] b2] _.
    rewrite (i_release_map (i_resource_cmp ca) _ _ _ _ _ _ (t_o t)) by (intros; apply i_resource_cmp_map).
    apply bind_map; intros [[rs3 ri3] b3] _; reflexivity.
  Qed.

  Lemma ig_extend_map l : forall g,
    ig_extend cb keep (gm g) (map tm l) = option_map gm (ig_extend ca keep g l).
  Proof.
    induction l as [|t l IH]; intros g; [reflexivity|]; cbn [ig_extend map]; rewrite ig_insert_map.
    apply bind_map; intros [b g'] _; apply IH.
  Qed.

  Lemma gp_constraint_map g c : gp_constraint cb (gm g) (pp_map f c) = gp_constraint ca g c.
  Proof. destruct c; try reflexivity; apply given_constraint_map. Qed.
  Lemma go_constraint_map g c : go_constraint cb (gm g) (po_map f c) = go_constraint ca g c.
  Proof. destruct c; try reflexivity; apply given_constraint_map. Qed.
  Lemma gm_new_map g c : gm_new cb (gm g) (ct_map f c) = gm_new ca g c.
  Proof.
    unfold gm_new; destruct (ct_parts_map f c) as (-> & -> & ->).
    rewrite gp_constraint_map, go_constraint_map.
    cbn [ig_map ig_resources ig_ri]; now rewrite s_constraint_map.
  Qed.
  Lemma gm_collect_map fuel cap g : forall m,
    gm_collect fuel cap (gm g) m = option_map (map tm) (gm_collect fuel cap g m).
  Proof.
    induction fuel as [|fuel IH]; intros m; [reflexivity|]; cbn -[gm_next i_triple_with_resources].
    apply bind_same; intros [[[i t] m']|] _; [|reflexivity].
    rewrite i_triple_with_resources_map; apply bind_map; intros x _.
    rewrite IH; apply bind_map; intros l _; reflexivity.
  Qed.
  Lemma ig_pattern_matching_map g spare c :
    ig_pattern_matching cb (gm g) spare (ct_map f c) =
    option_map (map tm) (ig_pattern_matching ca g spare c).
  Proof.
    unfold ig_pattern_matching; rewrite gm_new_map; apply bind_same; intros m _; apply gm_collect_map.
  Qed.
  Lemma ig_cmp_map a b : ig_cmp cb (gm a) (gm b) = ig_cmp ca a b.
  Proof.
    unfold ig_cmp; rewrite !ig_iter_map; destruct (ig_iter a); [|reflexivity].
    destruct (ig_iter b); [|reflexivity]; cbn; f_equal; apply list_cmp_map, triple_cmp_map, C.
  Qed.

  Lemma ig_step_map g o :
    ig_step cb keep (gm g) (op_map tm o) =
    option_map (fun '(x, g) => (out_map tm x, gm g)) (ig_step ca keep g o).
  Proof.
    destruct o; cbn [op_map ig_step].
    - rewrite ig_insert_map; destruct (ig_insert ca keep g x) as [[]|]; reflexivity.
    - rewrite ig_remove_map; destruct (ig_remove ca g x) as [[]|]; reflexivity.
    - rewrite ig_extend_map; destruct (ig_extend ca keep g l); reflexivity.
    - rewrite ig_contains_map; destruct (ig_contains ca g x); reflexivity.
    - reflexivity.
    - reflexivity.
    - rewrite ig_iter_map; destruct (ig_iter g); reflexivity.
    - rewrite ig_into_iter_map; destruct (ig_into_iter g); reflexivity.
  Qed.
  Lemma ig_reached_map ops0 ops g :
    ig_reached ca keep ops0 ops g ->
    ig_reached cb keep (map (op_map tm) ops0) (map (op_map tm) ops) (gm g).
  Proof.
    intros (xs0 & b & g0 & xs & H0 & H1 & H2).
    exists (map (out_map tm) xs0), (bg_map f b), (gm g0), (map (out_map tm) xs); split; [|split].
    - now rewrite (bg_run_map ca cb f C), H0.
    - now rewrite ig_from_non_indexed_map, H1.
    - now rewrite (run_map _ _ gm _ _ ig_step_map), H2.
  Qed.
End Map.
