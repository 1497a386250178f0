(** Removing all that mentions a resource, as a client of the crate writes it with
    pattern queries; here for quads:

    [[
    fn forget(d: &mut IndexedBTreeDataset<R>, r: &R) -> usize {
        let mut found = Vec::new();
        for p in [(r, _, _, _), (_, r, _, _), (_, _, r, _), (_, _, _, r)] {
            found.extend(d.pattern_matching(p).map(|q| q.map(R::clone)))
        }
        patch(d, &found, &[])
    }
    ]]

    where the underscores are different variables, and [patch] is that of [PatchModel].

    Simplification: [Clone] returns an equal value, as in the other models. *)
From Coq Require Import List.
Import ListNotations.
From Verif Require Import Base TripleModel TriplePatternModel QuadPatternModel PatchModel.

Section Forget.
  Context {D X P : Type}.
  (** /repo/src/dataset/impl/indexed_btree_dataset.rs 434-444 [pattern_matching],
      /repo/src/dataset/graph/impl/indexed_btree_graph.rs 330-339 [pattern_matching],
      and [insert] and [remove] of the same files, as in [IndexedDatasetModel] and
      [IndexedGraphModel]. *)
  Context (query : D -> P -> option (list X)) (insert remove : D -> X -> option (bool * D)).

  Fixpoint find_all (d : D) (ps : list P) : option (list X) :=
    match ps with
    | [] => Some []
    | p :: ps =>
        match query d p with
        | Some l =>
            match find_all d ps with
            | Some m => Some (l ++ m)
            | None => None
            end
        | None => None
        end
    end.

  Definition forget (d : D) (ps : list P) : option (nat * D) :=
    match find_all d ps with
    | Some found => patch insert remove d found []
    | None => None
    end.
End Forget.

(** The patterns, as [CanonicalQuadPattern] and [CanonicalTriplePattern] have them:
    /repo/src/pattern/quad/canonical.rs 11-14, /repo/src/pattern/triple/canonical.rs
    10-13. *)
Definition quad_mentions {R} (r : R) : list (cqp R) :=
  [CQ_GivenS r (QG_AnyP (QGA_Any QGAA_Any));
   CQ_AnyS (QA_GivenP r (QAG_Any QAGA_Any));
   CQ_AnyS (QA_AnyP (QAA_Given r QAAG_Any));
   CQ_AnyS (QA_AnyP (QAA_Any (QAAA_Given (Some r))))].
Definition triple_mentions {R} (r : R) : list (ctp R) :=
  [CT_GivenS r (TG_AnyP TGA_Any); CT_AnyS (TA_GivenP r TAG_Any); CT_AnyS (TA_AnyP (TAA_Given r))].
