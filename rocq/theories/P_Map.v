(** C55: the containers look at resources only through their order, and return
    only resources they were given.

    In the other files two resources that compare [Equal] are identical.  Here
    they need not be: [key] says what the order looks at ([ck] orders keys). *)
From Coq Require Import List Bool Arith.
Import ListNotations.
From Verif Require Import Base BaseProofs TripleModel TriplePatternModel QuadPatternModel PatternSpec
  SetSpec ContainerSpec IndexedSpec Machine BResourceModel BTreeDatasetModel BTreeGraphModel
  IResourceModel IndexedDatasetModel IndexedGraphModel MapSpec OwnProofs MapRunProofs.

(** ** The containers are sets of classes of resources *)

Theorem c55_btree_dataset_of_classes :
  forall R K (key : R -> K) (ck : K -> K -> comparison), ord_laws ck ->
  forall keep ops,
    exists xs d, run (bd_step (fun x y => ck (key x) (key y)) keep) bd_new ops = Some (xs, d) /\
      map (out_map (quad_map key)) xs = spec_outs (quad_cmp ck) (map (op_map (quad_map key)) ops).
Proof. exact @bd_keys. Qed.
Print Assumptions c55_btree_dataset_of_classes.

Theorem c55_btree_graph_of_classes :
  forall R K (key : R -> K) (ck : K -> K -> comparison), ord_laws ck ->
  forall keep ops,
    exists xs g, run (bg_step (fun x y => ck (key x) (key y)) keep) bg_new ops = Some (xs, g) /\
      map (out_map (triple_map key)) xs =
      spec_outs (triple_cmp ck) (map (op_map (triple_map key)) ops).
Proof. exact @bg_keys. Qed.
Print Assumptions c55_btree_graph_of_classes.

Theorem c55_indexed_dataset_of_classes :
  forall R K (key : R -> K) (ck : K -> K -> comparison), ord_laws ck ->
  forall keep ops0 ops,
    exists xs d, id_reached (fun x y => ck (key x) (key y)) keep ops0 ops xs d /\
      allowed_run ck (spec_set (quad_cmp ck) (map (op_map (quad_map key)) ops0))
        (map (iop_map key) ops) (map (iout_map key) xs).
Proof. exact @id_keys. Qed.
Print Assumptions c55_indexed_dataset_of_classes.

Theorem c55_indexed_dataset_contents :
  forall R K (key : R -> K) (ck : K -> K -> comparison), ord_laws ck ->
  forall keep ops0 ops xs d,
    id_reached (fun x y => ck (key x) (key y)) keep ops0 ops xs d ->
    let s := final_set ck (map (op_map (quad_map key)) ops0) (map (iop_map key) ops)
               (map (iout_map key) xs) in
    exists l, id_iter d = Some l /\ increasing (quad_cmp ck) (map (quad_map key) l) /\
      (forall q, In q (map (quad_map key) l) <-> In q s) /\ id_len d = length l /\
      (forall q, id_contains (fun x y => ck (key x) (key y)) d q =
                 Some (mem (quad_cmp (fun x y => ck (key x) (key y))) q l)).
Proof. exact @id_keys_contents. Qed.
Print Assumptions c55_indexed_dataset_contents.

Theorem c55_indexed_dataset_pattern :
  forall R K (key : R -> K) (ck : K -> K -> comparison), ord_laws ck ->
  forall keep ops0 ops xs d spare c,
    id_reached (fun x y => ck (key x) (key y)) keep ops0 ops xs d ->
    let s := final_set ck (map (op_map (quad_map key)) ops0) (map (iop_map key) ops)
               (map (iout_map key) xs) in
    exists l, id_pattern_matching (fun x y => ck (key x) (key y)) d spare c = Some l /\
      NoDup (map (quad_map key) l) /\
      forall q, In q l -> In (quad_map key q) s /\ cq_matches (cq_map key c) (quad_map key q).
Proof. exact @id_keys_pattern. Qed.
Print Assumptions c55_indexed_dataset_pattern.

Theorem c55_indexed_graph_of_classes :
  forall R K (key : R -> K) (ck : K -> K -> comparison), ord_laws ck ->
  forall keep ops0 ops,
    exists b g0 xs g, run (bg_step (fun x y => ck (key x) (key y)) keep) bg_new ops0 = Some b /\
      ig_from_non_indexed (snd b) = Some g0 /\
      run (ig_step (fun x y => ck (key x) (key y)) keep) g0 ops = Some (xs, g) /\
      spec_outs (triple_cmp ck) (map (op_map (triple_map key)) (ops0 ++ ops)) =
      spec_outs (triple_cmp ck) (map (op_map (triple_map key)) ops0) ++ map (out_map (triple_map key)) xs.
Proof. exact @ig_keys. Qed.
Print Assumptions c55_indexed_graph_of_classes.

Theorem c55_indexed_graph_pattern :
  forall R K (key : R -> K) (ck : K -> K -> comparison), ord_laws ck ->
  forall keep ops0 ops g spare c,
    ig_reached (fun x y => ck (key x) (key y)) keep ops0 ops g ->
    exists l, ig_pattern_matching (fun x y => ck (key x) (key y)) g spare c = Some l /\
      NoDup (map (triple_map key) l) /\
      forall t, In t l ->
        In (triple_map key t) (spec_set (triple_cmp ck) (map (op_map (triple_map key)) (ops0 ++ ops))) /\
        ct_matches (ct_map key c) (triple_map key t).
Proof. exact @ig_keys_pattern. Qed.
Print Assumptions c55_indexed_graph_pattern.

(** Resources with a key and a spelling.  The second quad is the first one
    spelled differently; the third uses a known resource spelled differently,
    which comes out with its first spelling. *)
Definition ex_ops : list (op (quad (nat * nat))) :=
  [Insert (Quad (1, 0) (2, 0) (3, 0) None); Insert (Quad (1, 7) (2, 7) (3, 7) None);
   Insert (Quad (1, 8) (2, 8) (4, 8) None); Contains (Quad (1, 9) (2, 9) (4, 9) None); Iter].
Example c55_ex : forall keep,
  option_map fst (run (bd_step (fun x y => Nat.compare (fst x) (fst y)) keep) bd_new ex_ops) =
  Some [OBool true; OBool false; OBool true; OBool true;
        OList [Quad (1, 0) (2, 0) (3, 0) None; Quad (1, 0) (2, 0) (4, 8) None]].
Proof. intros []; vm_compute; reflexivity. Qed.
Example c55_ex_hyp : ord_laws Nat.compare.
Proof. exact nat_compare_laws. Qed.
Example c55_ex_reached : forall keep, exists xs d,
  id_reached (fun x y => Nat.compare (fst x) (fst y)) keep ex_ops
    [IOp (Insert (Quad (1, 5) (1, 6) (9, 0) (Some (3, 5)))); IRemoveGraph (Some (3, 9))] xs d.
Proof.
  intros keep; do 2 eexists; do 3 eexists; destruct keep; vm_compute; repeat split.
Qed.

(** ** Replacing the resources by others in the same order changes nothing else
    The comparison may be anything, even inconsistent. *)

Theorem c55_btree_dataset_renamed :
  forall A B (ca : A -> A -> comparison) (cb : B -> B -> comparison) (f : A -> B),
  (forall x y, cb (f x) (f y) = ca x y) ->
  forall keep ops,
    match run (bd_step ca keep) bd_new ops with
    | None => run (bd_step cb keep) bd_new (map (op_map (quad_map f)) ops) = None
    | Some (xs, d) =>
        exists d', run (bd_step cb keep) bd_new (map (op_map (quad_map f)) ops) =
                   Some (map (out_map (quad_map f)) xs, d') /\
          bd_resources_iter d' = option_map (map f) (bd_resources_iter d) /\
          forall r, bd_contains_resource cb d' (f r) = bd_contains_resource ca d r
    end.
Proof. exact @bd_renamed. Qed.
Print Assumptions c55_btree_dataset_renamed.

Theorem c55_btree_graph_renamed :
  forall A B (ca : A -> A -> comparison) (cb : B -> B -> comparison) (f : A -> B),
  (forall x y, cb (f x) (f y) = ca x y) ->
  forall keep ops,
    match run (bg_step ca keep) bg_new ops with
    | None => run (bg_step cb keep) bg_new (map (op_map (triple_map f)) ops) = None
    | Some (xs, g) =>
        exists g', run (bg_step cb keep) bg_new (map (op_map (triple_map f)) ops) =
                   Some (map (out_map (triple_map f)) xs, g') /\
          bg_resources_iter g' = option_map (map f) (bg_resources_iter g) /\
          forall r, bg_contains_resource cb g' (f r) = bg_contains_resource ca g r
    end.
Proof. exact @bg_renamed. Qed.
Print Assumptions c55_btree_graph_renamed.

Theorem c55_indexed_dataset_renamed :
  forall A B (ca : A -> A -> comparison) (cb : B -> B -> comparison) (f : A -> B),
  (forall x y, cb (f x) (f y) = ca x y) ->
  forall keep ops0 ops,
    (forall xs d, id_reached ca keep ops0 ops xs d ->
       exists d', id_reached cb keep (map (op_map (quad_map f)) ops0) (map (iop_map f) ops)
                    (map (iout_map f) xs) d' /\ id_same ca cb f d d') /\
    (forall ys d', id_reached cb keep (map (op_map (quad_map f)) ops0) (map (iop_map f) ops) ys d' ->
       exists xs d, id_reached ca keep ops0 ops xs d).
Proof. exact @id_renamed_same. Qed.
Print Assumptions c55_indexed_dataset_renamed.

Theorem c55_indexed_graph_renamed :
  forall A B (ca : A -> A -> comparison) (cb : B -> B -> comparison) (f : A -> B),
  (forall x y, cb (f x) (f y) = ca x y) ->
  forall keep ops0 ops,
    (forall g, ig_reached ca keep ops0 ops g ->
       exists g', ig_reached cb keep (map (op_map (triple_map f)) ops0) (map (op_map (triple_map f)) ops) g' /\
         ig_same ca cb f g g') /\
    (forall g', ig_reached cb keep (map (op_map (triple_map f)) ops0) (map (op_map (triple_map f)) ops) g' ->
       exists g, ig_reached ca keep ops0 ops g).
Proof. exact @ig_renamed_same. Qed.
Print Assumptions c55_indexed_graph_renamed.

(** Containers compare as before. *)
Theorem c55_btree_dataset_cmp_renamed :
  forall A B (ca : A -> A -> comparison) (cb : B -> B -> comparison) (f : A -> B),
  (forall x y, cb (f x) (f y) = ca x y) ->
  forall keep ops1 ops2 xs1 xs2 ys1 ys2 d1 d2 e1 e2,
    run (bd_step ca keep) bd_new ops1 = Some (xs1, d1) ->
    run (bd_step ca keep) bd_new ops2 = Some (xs2, d2) ->
    run (bd_step cb keep) bd_new (map (op_map (quad_map f)) ops1) = Some (ys1, e1) ->
    run (bd_step cb keep) bd_new (map (op_map (quad_map f)) ops2) = Some (ys2, e2) ->
    bd_cmp cb e1 e2 = bd_cmp ca d1 d2.
Proof. exact @bd_cmp_renamed. Qed.
Print Assumptions c55_btree_dataset_cmp_renamed.

Theorem c55_btree_graph_cmp_renamed :
  forall A B (ca : A -> A -> comparison) (cb : B -> B -> comparison) (f : A -> B),
  (forall x y, cb (f x) (f y) = ca x y) ->
  forall keep ops1 ops2 xs1 xs2 ys1 ys2 d1 d2 e1 e2,
    run (bg_step ca keep) bg_new ops1 = Some (xs1, d1) ->
    run (bg_step ca keep) bg_new ops2 = Some (xs2, d2) ->
    run (bg_step cb keep) bg_new (map (op_map (triple_map f)) ops1) = Some (ys1, e1) ->
    run (bg_step cb keep) bg_new (map (op_map (triple_map f)) ops2) = Some (ys2, e2) ->
    bg_cmp cb e1 e2 = bg_cmp ca d1 d2.
Proof. exact @bg_cmp_renamed. Qed.
Print Assumptions c55_btree_graph_cmp_renamed.

Theorem c55_indexed_dataset_cmp_renamed :
  forall A B (ca : A -> A -> comparison) (cb : B -> B -> comparison) (f : A -> B),
  (forall x y, cb (f x) (f y) = ca x y) ->
  forall keep ops01 ops1 ops02 ops2 xs1 xs2 ys1 ys2 d1 d2 e1 e2,
    id_reached ca keep ops01 ops1 xs1 d1 -> id_reached ca keep ops02 ops2 xs2 d2 ->
    id_reached cb keep (map (op_map (quad_map f)) ops01) (map (iop_map f) ops1) ys1 e1 ->
    id_reached cb keep (map (op_map (quad_map f)) ops02) (map (iop_map f) ops2) ys2 e2 ->
    id_cmp cb e1 e2 = id_cmp ca d1 d2.
Proof. exact @id_cmp_renamed. Qed.
Print Assumptions c55_indexed_dataset_cmp_renamed.

Theorem c55_indexed_graph_cmp_renamed :
  forall A B (ca : A -> A -> comparison) (cb : B -> B -> comparison) (f : A -> B),
  (forall x y, cb (f x) (f y) = ca x y) ->
  forall keep ops01 ops1 ops02 ops2 d1 d2 e1 e2,
    ig_reached ca keep ops01 ops1 d1 -> ig_reached ca keep ops02 ops2 d2 ->
    ig_reached cb keep (map (op_map (triple_map f)) ops01) (map (op_map (triple_map f)) ops1) e1 ->
    ig_reached cb keep (map (op_map (triple_map f)) ops02) (map (op_map (triple_map f)) ops2) e2 ->
    ig_cmp cb e1 e2 = ig_cmp ca d1 d2.
Proof. exact @ig_cmp_renamed. Qed.
Print Assumptions c55_indexed_graph_cmp_renamed.

(** Two orders related by a map that is not one to one. *)
Example c55_ex_renamed : forall x y : nat * nat,
  Nat.compare (S (fst x)) (S (fst y)) = Nat.compare (fst x) (fst y).
Proof. reflexivity. Qed.

(** ** What comes out was put in
    Whatever the comparison, if all the resources inserted (by [insert] or
    [extend]) satisfy [P], so do all those returned. *)

Theorem c55_btree_dataset_own_resources :
  forall R (cmp : R -> R -> comparison) keep (P : R -> Prop) ops xs d,
    Forall (op_puts (quad_all P)) ops -> run (bd_step cmp keep) bd_new ops = Some (xs, d) ->
    Forall (out_all (quad_all P)) xs /\
    forall l, bd_resources_iter d = Some l -> Forall P l.
Proof. exact @bd_own. Qed.
Print Assumptions c55_btree_dataset_own_resources.

Theorem c55_btree_graph_own_resources :
  forall R (cmp : R -> R -> comparison) keep (P : R -> Prop) ops xs g,
    Forall (op_puts (triple_all P)) ops -> run (bg_step cmp keep) bg_new ops = Some (xs, g) ->
    Forall (out_all (triple_all P)) xs /\
    forall l, bg_resources_iter g = Some l -> Forall P l.
Proof. exact @bg_own. Qed.
Print Assumptions c55_btree_graph_own_resources.

Theorem c55_indexed_dataset_own_resources :
  forall R (cmp : R -> R -> comparison) keep (P : R -> Prop) ops0 ops xs d,
    Forall (op_puts (quad_all P)) ops0 -> Forall (iop_puts P) ops -> id_reached cmp keep ops0 ops xs d ->
    Forall (iout_all P) xs /\
    (forall l, id_resources_iter d = Some l -> Forall P l) /\
    (forall l, id_subjects d = Some l -> Forall P l) /\
    (forall l, id_predicates d = Some l -> Forall P l) /\
    (forall l, id_objects d = Some l -> Forall P l) /\
    (forall l, id_named_graphs d = Some l -> Forall P l) /\
    (forall spare c l, id_pattern_matching cmp d spare c = Some l -> Forall (quad_all P) l) /\
    (forall spare c l, id_multi_pattern_matching cmp d spare c = Some l -> Forall (quad_all P) l).
Proof. exact @id_own. Qed.
Print Assumptions c55_indexed_dataset_own_resources.

Theorem c55_indexed_graph_own_resources :
  forall R (cmp : R -> R -> comparison) keep (P : R -> Prop) ops0 ops g,
    Forall (op_puts (triple_all P)) ops0 -> Forall (op_puts (triple_all P)) ops ->
    ig_reached cmp keep ops0 ops g ->
    (forall l, ig_iter g = Some l -> Forall (triple_all P) l) /\
    (forall l, ig_into_iter g = Some l -> Forall (triple_all P) l) /\
    (forall l, ig_resources_iter g = Some l -> Forall P l) /\
    (forall l, ig_subjects g = Some l -> Forall P l) /\
    (forall l, ig_predicates g = Some l -> Forall P l) /\
    (forall l, ig_objects g = Some l -> Forall P l) /\
    (forall spare c l, ig_pattern_matching cmp g spare c = Some l -> Forall (triple_all P) l).
Proof. exact @ig_own. Qed.
Print Assumptions c55_indexed_graph_own_resources.

(** The spelling 9 is only asked about, so it never comes out. *)
Example c55_ex_own : Forall (op_puts (quad_all (fun r => snd r <> 9))) ex_ops.
Proof.
  unfold ex_ops; repeat (apply Forall_cons; [cbn; repeat split; discriminate|]); apply Forall_nil.
Qed.
