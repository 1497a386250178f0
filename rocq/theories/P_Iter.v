(** Property C57: iterators called one item at a time, and after their end.

    [calls next n i] is what [n] successive calls of [next] return from the state
    [i], and the last state; [streams next i l] says that, however many calls are
    made, call number [k] returns the element number [k] of [l] or, past the end
    of [l], [None] (IterSpec.v).  The states are those of IterModel.v, which also
    follow the changes made by a call that returns [None]. *)
From Coq Require Import List Bool Arith NArith.
Import ListNotations.
From Verif Require Import Base TripleModel TriplePatternModel QuadPatternModel TermModel SetSpec
  IndexedSpec IndexedDatasetModel IndexedGraphModel PatternMapModel TraitModel IterModel IterSpec
  BaseProofs IndexedRunProofs IndexedGraphRunProofs IterProofs.

(** ** Queries on indexed containers *)

Theorem c57_dataset_query :
  forall R (cmp : R -> R -> comparison), ord_laws cmp ->
  forall keep ops0 ops xs d spare c,
    id_reached cmp keep ops0 ops xs d ->
    exists m l, pm_new cmp d c = Some m /\ id_pattern_matching cmp d spare c = Some l /\
      streams (pm_call (capacity d spare) d) m l.
Proof. exact @id_query_next. Qed.
Print Assumptions c57_dataset_query.

Theorem c57_dataset_multi_query :
  forall R (cmp : R -> R -> comparison), ord_laws cmp ->
  forall keep ops0 ops xs d spare c,
    id_reached cmp keep ops0 ops xs d ->
    exists m l, pm_new_multi cmp d c = Some m /\ id_multi_pattern_matching cmp d spare c = Some l /\
      streams (pm_call (capacity d spare) d) m l.
Proof. exact @id_multi_next. Qed.
Print Assumptions c57_dataset_multi_query.

(** An extraction removes one quad per call as long as there are any; the calls
    made after its end leave the dataset as it is ([d_end]). *)
Theorem c57_dataset_extract :
  forall R (cmp : R -> R -> comparison), ord_laws cmp ->
  forall keep ops0 ops xs d spare c,
    id_reached cmp keep ops0 ops xs d ->
    exists m l d_end, pm_new cmp d c = Some m /\ id_pattern_matching cmp d spare c = Some l /\
      forall n, exists d' m',
        calls (extract_call cmp (capacity d spare)) n (d, m) =
          Some (map (nth_error l) (seq 0 n), (d', m')) /\
        id_extract cmp d spare c n = Some (firstn n l, d') /\
        (length l <= n -> d' = d_end).
Proof. exact @id_extract_next. Qed.
Print Assumptions c57_dataset_extract.

Theorem c57_graph_query :
  forall R (cmp : R -> R -> comparison), ord_laws cmp ->
  forall keep ops0 ops g spare c,
    ig_reached cmp keep ops0 ops g ->
    exists m l, gm_new cmp g c = Some m /\ ig_pattern_matching cmp g spare c = Some l /\
      streams (gm_call (gcapacity g spare) g) m l.
Proof. exact @ig_query_next. Qed.
Print Assumptions c57_graph_query.

(** Three quads, one of them removed: the query for the predicate 2 meets the
    vacant place, ends there, and stays at its end. *)
Example c57_query_example : forall keep,
  let ops := [IOp (Insert (Quad 1 2 3 None)); IOp (Insert (Quad 4 5 6 None));
              IOp (Insert (Quad 7 2 8 (Some 1))); IOp (Remove (Quad 4 5 6 None))] in
  let d := after ops keep in
  let c := CQ_AnyS (QA_GivenP 2 (QAG_Any QAGA_Any)) in
  (exists xs, id_reached Nat.compare keep [] ops xs d) /\
  exists m, pm_new Nat.compare d c = Some m /\
    option_map fst (calls (pm_call (capacity d 2) d) 4 m) =
      Some [Some (Quad 1 2 3 None); None; None; None] /\
    option_map (fun r => (fst r, id_iter (fst (snd r))))
      (calls (extract_call Nat.compare (capacity d 2)) 3 (d, m)) =
      Some ([Some (Quad 1 2 3 None); None; None], Some [Quad 7 2 8 (Some 1)]).
Proof.
  intros keep ops d c; split.
  - exists (repeat (IOut (OBool true)) 4); reach.
  - destruct keep; eexists; (split; [reflexivity|]); split; vm_compute; reflexivity.
Qed.

Example c57_graph_example : forall keep,
  let ops := [Insert (Triple 1 2 3); Insert (Triple 4 5 6); Insert (Triple 1 5 8)] in
  let g := gafter ops keep in
  ig_reached Nat.compare keep [] ops g /\
  exists m, gm_new Nat.compare g (CT_GivenS 1 (TG_AnyP TGA_Any)) = Some m /\
    option_map fst (calls (gm_call (gcapacity g 0) g) 4 m) =
      Some [Some (Triple 1 2 3); Some (Triple 1 5 8); None; None].
Proof.
  intros keep ops g; split.
  - apply (gafter_reached keep ops (repeat (OBool true) 3)); destruct keep; vm_compute; reflexivity.
  - destruct keep; eexists; (split; [reflexivity|]); vm_compute; reflexivity.
Qed.

(** ** Values of a triple pattern map *)

Theorem c57_map_values : forall V T (teqb : T -> T -> bool) (m : tpm V T) t,
  streams (total tpm_next) (tpm_values teqb m t) (tpm_get teqb m t).
Proof. exact @tpm_streams. Qed.
Print Assumptions c57_map_values.

Example c57_map_example :
  let m := snd (insert_all (tpm_insert Nat.eqb Nat.eqb)
    [(CT_GivenS 1 (TG_GivenP 2 (TGG_Given 1)), 10); (CT_AnyS (TA_AnyP TAA_SameS), 20);
     (CT_AnyS (TA_AnyP TAA_Any), 30); (CT_GivenS 7 (TG_AnyP TGA_Any), 40)] tpm_default) in
  fst (match calls (total tpm_next) 5 (tpm_values Nat.eqb m (Triple 1 2 1)) with
       | Some r => r | None => ([], tpm_values Nat.eqb m (Triple 1 2 1)) end) =
  [Some 30; Some 20; Some 10; None; None].
Proof. reflexivity. Qed.

(** ** Adaptors: they are fused when the iterators they are made of are *)

Theorem c57_terms_of :
  forall I J (iris : I -> option cow * I) (literals : J -> option literal_cow * J) i j l k,
    streams (total iris) i l -> streams (total literals) j k ->
    streams (total (terms_of_next iris literals)) (i, j) (map CIri l ++ map CLit k).
Proof. exact @terms_of_streams. Qed.
Print Assumptions c57_terms_of.

Theorem c57_local_terms_of :
  forall I J K (iris : I -> option cow * I) (literals : J -> option literal_cow * J)
    (blank_ids : K -> option cow * K) i j b l k m,
    streams (total iris) i l -> streams (total literals) j k -> streams (total blank_ids) b m ->
    streams (total (local_terms_of_next iris literals blank_ids)) (i, j, b)
      (map CNamed (map CIri l ++ map CLit k) ++ map CAnonymous m).
Proof. exact @local_terms_of_streams. Qed.
Print Assumptions c57_local_terms_of.

Theorem c57_quad_objects :
  forall R I (next : I -> option (quad R) * I) (start : cqp R -> I) g s p l,
    streams (total next) (start (cq_from_option_quad (Quad (Some s) (Some p) None (Some g)))) l ->
    streams (total (quad_objects_next next)) (quad_objects start g s p) (map q_o l).
Proof. exact @quad_objects_streams. Qed.
Print Assumptions c57_quad_objects.

(** One item per predicate that has an object, in order; the second part of the
    item yields the objects. *)
Theorem c57_quad_predicates_objects :
  forall R I (next : I -> option (quad R) * I) (start : cqp R -> I) g s
    (ls : R -> list (quad R)) ps,
    (forall p, In p ps ->
       streams (total next) (start (CQ_GivenS s (QG_GivenP p (QGG_Any (QGGA_Given g))))) (ls p)) ->
    exists items,
      streams (total (quad_predicates_objects_next next start g s)) ps items /\
      Forall2 (fun p it => fst it = p /\
                 streams (total (quad_objects_next next)) (snd it) (map q_o (ls p)))
        (filter (fun p => negb (length (ls p) =? 0)) ps) items.
Proof. exact @quad_predicates_objects_streams. Qed.
Print Assumptions c57_quad_predicates_objects.

Theorem c57_triple_objects :
  forall R I (next : I -> option (triple R) * I) (start : ctp R -> I) s p l,
    streams (total next) (start (ct_from_option_triple (Triple (Some s) (Some p) None))) l ->
    streams (total (triple_objects_next next)) (triple_objects start s p) (map t_o l).
Proof. exact @triple_objects_streams. Qed.
Print Assumptions c57_triple_objects.

Theorem c57_triple_predicates_objects :
  forall R I (next : I -> option (triple R) * I) (start : ctp R -> I) s
    (ls : R -> list (triple R)) ps,
    (forall p, In p ps ->
       streams (total next) (start (CT_GivenS s (TG_GivenP p TGG_Any))) (ls p)) ->
    exists items,
      streams (total (triple_predicates_objects_next next start s)) ps items /\
      Forall2 (fun p it => fst it = p /\
                 streams (total (triple_objects_next next)) (snd it) (map t_o (ls p)))
        (filter (fun p => negb (length (ls p) =? 0)) ps) items.
Proof. exact @triple_predicates_objects_streams. Qed.
Print Assumptions c57_triple_predicates_objects.

(** A graph queried as a dataset. *)
Theorem c57_graph_as_dataset :
  forall R I (next : I -> option (triple R) * I) (start : ctp R -> I) c l,
    streams (total next) (start (fst (cq_into_triple c))) l ->
    streams (total (graph_next next)) (graph_start start c)
      match snd (cq_into_triple c) with
      | PG_Given None | PG_Any => map (fun t => Quad (t_s t) (t_p t) (t_o t) None) l
      | _ => []
      end.
Proof. exact @graph_streams. Qed.
Print Assumptions c57_graph_as_dataset.

Theorem c57_infallible :
  forall I X E (next : I -> option X * I) i l,
    streams (total next) i l -> streams (total (infallible_next (E:=E) next)) i (map Ok l).
Proof. exact @infallible_streams. Qed.
Print Assumptions c57_infallible.

(** The hypotheses: an iterator over a list is fused; one that starts again
    after its end is not, and [TermsOf] over it then goes back to the IRIs. *)
Example c57_adaptors_example :
  let iris := [Owned [97%N]] in
  streams (total list_next) iris iris /\
  let again := fun n : nat => if Nat.even n then (Some (Owned [97%N]), S n) else (None, S n) in
  option_map fst (calls (total (terms_of_next again list_next)) 4 (0, [])) =
    Some [Some (CIri (Owned [97%N])); None; Some (CIri (Owned [97%N])); None].
Proof. split; [exact (list_streams _)|reflexivity]. Qed.
